(** Property C65, continued: exhaustive32_midpoint.cpp, random64.cpp and
    long_random64.cpp. *)
From Verif Require Import Machine Config Chars Format ParseNumber DecToBin FromChars RandomText Sweep SweepLemmas WordLemmas
  Rounding FpArith ComputeFloat SpecFloat FloatBridge SpecGrammar SpecText SpecApi SpecRel SpecPrint SpecPrintf Scan Special
  FloatApi FloatRel TextSpec
  Props_Pow10 Props_Float Props_Relations Props_Grammar Props_Json Props_Texts Props_Special Props_FindMax Props_RandomText Props_Print
  Props_Sweep.
From Coq Require Import QArith Qabs Qpower Lqa.
Open Scope Z_scope.

(** *** Midpoints *)
Lemma double_code j : 0 <= j -> forall m, 0 <= m < 2 ^ 53 ->
  exists b, fp_units 52 b = m * 2 ^ j /\ 0 <= b < (j + 2) * 2 ^ 52.
Proof.
  intros J. pattern j. apply natlike_ind; [| |exact J].
  - intros m M. exists m. split; [|lia]. replace m with (0 * 2 ^ 52 + m) at 1 by lia. apply U_enc; [lia|]. unfold canon. lia.
  - clear. intros j J IH m M. destruct (Z.le_gt_cases (2 ^ 52) m) as [L|L].
    + exists (Z.succ j * 2 ^ 52 + m). split; [|lia]. apply U_enc; [lia|]. unfold canon. lia.
    + destruct (IH (2 * m) ltac:(lia)) as (b & E & B). exists b. split; [|lia]. rewrite E, Z.pow_succ_r by lia. ring.
Qed.

Lemma double_result_exact c num den b : 0 < den -> 0 <= b < infinity binary64 -> Z.abs num = fp_units 52 b * den ->
  double_result c num den = with_sign binary64 (num <? 0) b.
Proof.
  intros D B E. unfold double_result.
  assert (R : forall md, ieee_round md (mant_bits F64) (min_exp F64) (infinity_bits F64) (Z.abs num) (den * 2 ^ (- (min_exp F64 + 1 - mant_bits F64))) = b).
  { intros md. assert (P : 0 < 2 ^ (- (min_exp F64 + 1 - mant_bits F64))) by reflexivity.
    apply ieee_round_exact; [reflexivity|lia|nia|exact B|]. rewrite E.
    change (- (min_exp F64 + 1 - mant_bits F64)) with 1074 in *. change (mant_bits F64) with 52.
    rewrite !inject_Z_mult. rewrite qpow_Z by lia.
    assert (Q1 : ~ ([den]q == 0)%Q) by (intros H; apply q_eq in H; lia).
    assert (Q2 : ~ ([2 ^ 1074]q == 0)%Q) by (intros H; apply q_eq in H; lia).
    field. split; assumption. }
  rewrite R. rewrite (with_sign_eq F64). change (2 ^ sign_index F64) with (2 ^ 63). destruct (num <? 0); lia.
Qed.

Lemma double_units_spec neg b : 0 <= b < 2 ^ 63 -> double_units (with_sign binary64 neg b) = if neg then - fp_units 52 b else fp_units 52 b.
Proof.
  intros B. unfold double_units. pose proof (sign_mod F64 neg b B) as H. cbn [format_of] in H. change (2 ^ sign_index F64) with (2 ^ 63) in H.
  rewrite H. pose proof (negative_spec F64 neg b B) as H2. cbn [format_of] in H2. rewrite H2. reflexivity.
Qed.

(** The double [b] is the midpoint of the floats [a] and [a + 1]. *)
Definition halfway (a b : Z) : Prop :=
  0 <= b < infinity binary64 /\ (magnitude binary64 b == (magnitude binary32 a + magnitude binary32 (a + 1)) * (1 # 2))%Q.

Lemma halfway_units a b : 0 <= a -> 0 <= b < infinity binary64 ->
  fp_units 52 b = (fp_units 23 a + fp_units 23 (a + 1)) * 2 ^ 924 -> halfway a b.
Proof.
  intros A B E. split; [exact B|].
  pose proof (magnitude_units F64 b ltac:(lia)) as M. pose proof (magnitude_units F32 a A) as M1.
  pose proof (magnitude_units F32 (a + 1) ltac:(lia)) as M2. cbn [format_of mant_bits] in M, M1, M2. rewrite M, M1, M2, E.
  rewrite inject_Z_mult, inject_Z_plus.
  assert (H : ([2 ^ 924]q * ulp0 F64 == ulp0 F32 * (1 # 2))%Q) by (vm_compute; reflexivity).
  rewrite <- Qmult_assoc, H. ring.
Qed.

(** The midpoint that exhaustive32_midpoint.cpp computes is exact in every rounding
    direction. *)
Theorem midpoint_exact :
  forall (c : cfg) (neg : bool) (a : Z), 0 <= a -> a + 1 < infinity binary32 ->
  exists b, halfway a b /\
    (if neg then midpoint c (with_sign binary32 true (a + 1)) (with_sign binary32 true a)
     else midpoint c (with_sign binary32 false a) (with_sign binary32 false (a + 1))) = with_sign binary64 neg b.
Proof.
  intros c neg a A I. change (infinity binary32) with (255 * 2 ^ 23) in I.
  destruct (U_dec 23 a ltac:(lia) A) as (k & m & EA & CA & ML). pose proof CA as (K & M & _).
  assert (KU : k < 255) by lia.
  assert (UA : fp_units 23 a = m * 2 ^ k) by (rewrite EA; apply U_enc; [lia|exact CA]).
  assert (UB : fp_units 23 (a + 1) = (m + 1) * 2 ^ k) by (rewrite EA; apply U_succ; [lia|exact CA|exact ML]).
  assert (PK : 0 < 2 ^ k) by (apply pow2_pos; lia). change (2 ^ (23 + 1)) with (2 ^ 24) in *.
  destruct (double_code (k + 924) ltac:(lia) (2 * m + 1) ltac:(lia)) as (b & UH & B).
  destruct (double_code (k + 925) ltac:(lia) 1 ltac:(lia)) as (d & UD & D).
  destruct (double_code (k + 924) ltac:(lia) 1 ltac:(lia)) as (h & UHF & HH).
  assert (P1 : 2 ^ (k + 924) = 2 ^ k * 2 ^ 924) by (apply Z.pow_add_r; lia).
  assert (P2 : 2 ^ (k + 925) = 2 ^ k * 2 ^ 925) by (apply Z.pow_add_r; lia).
  assert (P3 : 2 ^ 925 = 2 * 2 ^ 924) by reflexivity.
  rewrite P1 in UH, UHF. rewrite P2 in UD. rewrite P3 in UD.
  assert (INF : infinity binary64 = 2047 * 2 ^ 52) by reflexivity.
  exists b. split.
  { apply halfway_units; [exact A|lia|]. rewrite UH, UA, UB. ring. }
  destruct (widen_spec neg a ltac:(lia)) as (x & WX & BX & FX & _).
  destruct (widen_spec neg (a + 1) ltac:(lia)) as (y & WY & BY & FY & _).
  change (infinity binary32) with (255 * 2 ^ 23) in *.
  destruct (FX ltac:(lia)) as (IX & UX). destruct (FY ltac:(lia)) as (IY & UY). rewrite UA, P3 in UX. rewrite UB, P3 in UY.
  set (T := 2 ^ 924) in *. assert (PT : 0 < T) by reflexivity. set (Kp := 2 ^ k) in *.
  assert (PKT : 0 < Kp * T) by nia.
  clearbody T Kp. clear FX FY P1 P2 P3 PK.
  assert (MP : 0 <= m * (Kp * T)) by nia.
  replace (m * Kp * (2 * T)) with (2 * (m * (Kp * T))) in UX by ring.
  replace ((m + 1) * Kp * (2 * T)) with (2 * (m * (Kp * T)) + 2 * (Kp * T)) in UY by ring.
  replace (1 * (Kp * (2 * T))) with (2 * (Kp * T)) in UD by ring.
  replace ((2 * m + 1) * (Kp * T)) with (2 * (m * (Kp * T)) + Kp * T) in UH by ring.
  set (q := m * (Kp * T)) in *. set (p := Kp * T) in *. clearbody q p.
  assert (GO : forall v1 v2 : Z, 0 <= v1 < infinity binary64 -> 0 <= v2 < infinity binary64 ->
    (if neg then v1 = y /\ v2 = x else v1 = x /\ v2 = y) ->
    double_result c (double_units (with_sign binary64 neg v1) +
      double_units (double_result c (double_units (double_result c (double_units (with_sign binary64 neg v2) - double_units (with_sign binary64 neg v1)) 1)) 2)) 1
      = with_sign binary64 neg b).
  { intros v1 v2 V1 V2 OR. rewrite (double_units_spec neg v1), (double_units_spec neg v2) by lia.
    set (x1 := if neg then - fp_units 52 v1 else fp_units 52 v1). set (x2 := if neg then - fp_units 52 v2 else fp_units 52 v2).
    assert (X2 : x2 - x1 = 2 * p) by (unfold x1, x2; destruct neg; destruct OR as (-> & ->); lia).
    assert (X1 : x1 + p = if neg then - (2 * q + p) else 2 * q + p) by (unfold x1, x2; destruct neg; destruct OR as (-> & ->); lia).
    clearbody x1 x2. rewrite X2, (double_result_exact c (2 * p) 1 d) by lia.
    replace (2 * p <? 0) with false by (symmetry; apply Z.ltb_ge; lia).
    rewrite double_units_spec by lia. rewrite UD, (double_result_exact c (2 * p) 2 h) by lia.
    replace (2 * p <? 0) with false by (symmetry; apply Z.ltb_ge; lia).
    rewrite double_units_spec by lia. rewrite UHF, Z.mul_1_l, X1.
    rewrite (double_result_exact c _ 1 b) by (first [lia | destruct neg; lia]).
    replace (_ <? 0) with neg; [reflexivity|]. destruct neg; symmetry; [apply Z.ltb_lt|apply Z.ltb_ge]; lia. }
  unfold midpoint. cbv zeta. destruct neg.
  - rewrite WX, WY. apply GO; [lia|lia|split; reflexivity].
  - rewrite WX, WY. apply GO; [lia|lia|split; reflexivity].
Qed.
Print Assumptions midpoint_exact.

Lemma halfway_unique a b b' : halfway a b -> halfway a b' -> b = b'.
Proof.
  intros (B & E) (B' & E'). rewrite <- E in E'. destruct (Z.lt_trichotomy b b') as [L|[L|L]]; [|exact L|].
  - pose proof (magnitude_lt F64 b b' ltac:(lia)) as H. cbn [format_of] in H. rewrite E' in H. destruct (Qlt_irrefl _ H).
  - pose proof (magnitude_lt F64 b' b ltac:(lia)) as H. cbn [format_of] in H. rewrite E' in H. destruct (Qlt_irrefl _ H).
Qed.

Lemma halfway_positive a b : 0 <= a -> a + 1 < infinity binary32 -> halfway a b -> 0 < b.
Proof.
  intros A I HB. destruct (midpoint_exact cfg_x86_64 false a A I) as (b' & HB' & _).
  destruct HB as (B & E). destruct (Z.eq_dec b 0) as [->|N]; [exfalso|lia].
  pose proof (magnitude_le F32 0 a ltac:(lia)) as L1. pose proof (magnitude_lt F32 0 (a + 1) ltac:(lia)) as L2. cbn [format_of] in L1, L2.
  assert (Z32 : (magnitude binary32 0 == 0)%Q) by reflexivity. assert (Z64 : (magnitude binary64 0 == 0)%Q) by reflexivity.
  rewrite Z32 in L1, L2. rewrite Z64 in E. lra.
Qed.

(** [read] and [strtof] agree about the text, and the sign is [neg]. *)
Definition alike (neg : bool) (strtof : list Z -> option Z) (read : list Z -> res result) (text : list Z) : Prop :=
  exists r y s, read text = Ok r /\ r_ec r <> InvalidArgument /\ r_value r = Some (with_sign binary32 neg y) /\
    0 <= y <= infinity binary32 /\ strtof text = Some (with_sign binary32 s y) /\ (s = neg \/ y = 0).

(** Readers store 32-bit words. *)
Definition stores_word (strtof : list Z -> option Z) (read : list Z -> res result) (text : list Z) : Prop :=
  (forall v, strtof text = Some v -> 0 <= v < 2 ^ 32) /\
  (forall r v, read text = Ok r -> r_value r = Some v -> 0 <= v < 2 ^ 32).

Lemma alike_check neg strtof read text : stores_word strtof read text ->
  outcome_answer (match strtof text with
  | None => Done Crash
  | Some str_answer =>
      do* r := lift (read text) in
      match r_ec r with
      | InvalidArgument => Done Bad
      | _ =>
          match r_value r with
          | None => Undefined
          | Some x =>
              if negb (Bool.eqb (fp_negative F32 x) neg) then Done Bad
              else if negb (fp_equal F32 x str_answer) then Done Bad
              else Done Good
          end
      end
  end) = Good <-> alike neg strtof read text.
Proof.
  intros (SW & RW). unfold alike. destruct (strtof text) as [v|] eqn:ES.
  2:{ split; [discriminate|]. intros (r & y & s & _ & _ & _ & _ & H & _). discriminate H. }
  destruct (read text) as [r|] eqn:ER; cbn [lift andthen].
  2:{ split; [discriminate|]. intros (r & y & s & H & _). discriminate H. }
  assert (BODY : forall x, r_value r = Some x ->
    (outcome_answer (if negb (Bool.eqb (fp_negative F32 x) neg) then Done Bad else if negb (fp_equal F32 x v) then Done Bad else Done Good) = Good <->
     exists y s, x = with_sign binary32 neg y /\ 0 <= y <= infinity binary32 /\ v = with_sign binary32 s y /\ (s = neg \/ y = 0))).
  { intros x EX. destruct (word_parts F32 x (RW r x eq_refl EX)) as (nx & y & XE & Y).
    destruct (word_parts F32 v (SW v eq_refl)) as (nv & z & VE & Zr). cbn [format_of] in *.
    assert (NG : fp_negative F32 x = nx) by (rewrite XE; apply (negative_spec F32); exact Y). rewrite NG.
    assert (NANS : infinity binary32 < y \/ infinity binary32 < z -> fp_equal F32 x v = false).
    { intros H. unfold fp_equal. fold (fp_nan F32 x) (fp_nan F32 v).
      pose proof (nan_spec F32 nx y Y) as NX. pose proof (nan_spec F32 nv z Zr) as NV. cbn [format_of] in NX, NV. rewrite XE, VE, NX, NV.
      destruct H as [H|H]; apply Z.ltb_lt in H; rewrite H; [reflexivity|]. cbn [negb]. rewrite andb_false_r. reflexivity. }
    assert (EQV : y <= infinity binary32 -> z <= infinity binary32 -> fp_equal F32 x v = ((if nx then - y else y) =? (if nv then - z else z))).
    { intros. rewrite XE, VE. apply (equal_spec F32); cbn [format_of]; lia. }
    assert (INJ : forall n1 n2 u1 u2, 0 <= u1 < 2 ^ 31 -> 0 <= u2 < 2 ^ 31 -> with_sign binary32 n1 u1 = with_sign binary32 n2 u2 -> n1 = n2 /\ u1 = u2).
    { intros n1 n2 u1 u2 H1 H2. rewrite !(with_sign_eq F32). change (2 ^ sign_index F32) with (2 ^ 31). destruct n1, n2; intros; (split; [try reflexivity; lia|lia]). }
    change (2 ^ sign_index F32) with (2 ^ 31) in *. assert (IB : infinity binary32 < 2 ^ 31) by reflexivity.
    split.
    - destruct (Bool.eqb nx neg) eqn:SG; cbn [negb]; [|discriminate]. apply Bool.eqb_prop in SG. rewrite SG in *. clear SG NG.
      destruct (fp_equal F32 x v) eqn:EQ; cbn [negb]; [|discriminate]. intros _.
      assert (y <= infinity binary32) by (destruct (Z.le_gt_cases y (infinity binary32)) as [?|H]; [assumption|exfalso; assert (K := NANS (or_introl H)); congruence]).
      assert (z <= infinity binary32) by (destruct (Z.le_gt_cases z (infinity binary32)) as [?|H0]; [assumption|exfalso; assert (K := NANS (or_intror H0)); congruence]).
      assert (EQ2 := EQV ltac:(lia) ltac:(lia)). try rewrite EQ in EQ2. symmetry in EQ2. apply Z.eqb_eq in EQ2. assert (z = y) by (destruct neg, nv; lia). subst z.
      exists y, nv. split; [exact XE|]. split; [lia|]. split; [exact VE|]. destruct neg, nv; try (left; reflexivity); right; lia.
    - intros (y' & s & XE' & Y' & VE' & SN). rewrite XE' in XE. rewrite VE' in VE. apply INJ in XE; [|lia|lia]. apply INJ in VE; [|lia|lia].
      destruct XE as (<- & <-). destruct VE as (<- & <-). rewrite Bool.eqb_reflx. cbn [negb]. rewrite EQV by lia.
      replace (_ =? _) with true; [reflexivity|]. symmetry. apply Z.eqb_eq. destruct SN as [->| ->]; [reflexivity|destruct neg, s; reflexivity]. }
  destruct (r_ec r) eqn:EC.
  2:{ split; [discriminate|]. intros (r' & y & s & H & H' & _). injection H as <-. congruence. }
  all: destruct (r_value r) as [x|] eqn:EV.
  2,4: split; [discriminate|]; intros (r' & y & s & H & _ & H' & _); injection H as <-; congruence.
  all: rewrite BODY by reflexivity; split;
    [intros (y & s & H1 & H2 & H3 & H4); exists r, y, s; split; [reflexivity|]; split; [congruence|]; split; [congruence|]; split; [exact H2|]; split; [congruence|exact H4]
    |intros (r' & y & s & H1 & _ & H3 & H4 & H5 & H6); injection H1 as <-;
     exists y, s; split; [congruence|]; split; [exact H4|]; split; [congruence|exact H6]].
Qed.

(** C65: exhaustive32_midpoint.cpp with any printf, strtof and reader: EXIT_SUCCESS
    exactly if for every two neighbouring finite floats of either sign the reader and
    strtof agree about the text of their midpoint. *)
Theorem exhaustive32_midpoint_exact :
  forall (c : cfg) (print : Z -> list Z) (strtof : list Z -> option Z) (read : list Z -> res result) (hardware_concurrency : Z),
  unsigned_int hardware_concurrency ->
  (forall neg b, 0 < b < infinity binary64 -> stores_word strtof read (print (with_sign binary64 neg b))) ->
  always_exits exhaustive32_midpoint (check_midpoint c print strtof read) hardware_concurrency
    (forall neg a b, 0 <= a -> a + 1 < infinity binary32 -> halfway a b ->
       fits 64 (print (with_sign binary64 neg b)) /\ alike neg strtof read (print (with_sign binary64 neg b))).
Proof.
  intros c print strtof read hc HC SW. eapply always_exits_iff; [|apply every_schedule_exact; [exact HC|left; reflexivity]].
  assert (ONE : forall w neg a, 0 <= a -> a + 1 < infinity binary32 -> w = with_sign binary32 neg (if neg then a + 1 else a) ->
    outcome_answer (check_midpoint c print strtof read w) = Good <->
    (forall b, halfway a b -> fits 64 (print (with_sign binary64 neg b)) /\ alike neg strtof read (print (with_sign binary64 neg b)))).
  { intros w neg a A I W. destruct (midpoint_exact c neg a A I) as (b & HB & MP).
    assert (RW : (forall b', halfway a b' -> fits 64 (print (with_sign binary64 neg b')) /\ alike neg strtof read (print (with_sign binary64 neg b'))) <->
      fits 64 (print (with_sign binary64 neg b)) /\ alike neg strtof read (print (with_sign binary64 neg b))).
    { split; [intros H; exact (H b HB)|]. intros H b' HB'. rewrite (halfway_unique a b' b HB' HB). exact H. }
    rewrite RW. clear RW.
    assert (IR : infinity binary32 < 2 ^ 31) by reflexivity.
    assert (NX : next_after w = with_sign binary32 neg (if neg then a else a + 1)).
    { unfold next_after. subst w. pose proof (sign_mod F32 neg (if neg then a + 1 else a)) as SM.
      pose proof (negative_spec F32 neg (if neg then a + 1 else a)) as NG.
      change (2 ^ sign_index F32) with (2 ^ 31) in SM, NG. cbn [format_of] in SM, NG.
      assert (BD : 0 <= (if neg then a + 1 else a) < 2 ^ 31) by (destruct neg; lia). rewrite (SM BD), (NG BD).
      rewrite !(with_sign_eq F32). change (2 ^ sign_index F32) with (2 ^ 31). destruct neg.
      - destruct (Z.eqb_spec (a + 1) 0); lia.
      - destruct (Z.eqb_spec a 0); lia. }
    assert (B1 : 0 <= (if neg then a + 1 else a) < infinity binary32) by (destruct neg; lia).
    assert (B2 : 0 <= (if neg then a else a + 1) < infinity binary32) by (destruct neg; lia).
    assert (NEG : fp_negative F32 w = neg) by (rewrite W; apply (negative_spec F32); change (2 ^ sign_index F32) with (2 ^ 31); lia).
    unfold check_midpoint. cbv zeta. rewrite NX, NEG.
    rewrite W at 1. pose proof (finite_spec F32 neg (if neg then a + 1 else a)) as FS1. cbn [format_of] in FS1.
    rewrite FS1 by (change (2 ^ sign_index F32) with (2 ^ 31); lia). replace (_ <? _) with true by (symmetry; apply Z.ltb_lt; lia). cbn [negb].
    pose proof (negative_spec F32 neg (if neg then a else a + 1)) as NS2. cbn [format_of] in NS2.
    rewrite NS2 by (change (2 ^ sign_index F32) with (2 ^ 31); lia). rewrite Bool.eqb_reflx. cbn [negb].
    pose proof (finite_spec F32 neg (if neg then a else a + 1)) as FS2. cbn [format_of] in FS2.
    rewrite FS2 by (change (2 ^ sign_index F32) with (2 ^ 31); lia). replace (_ <? _) with true by (symmetry; apply Z.ltb_lt; lia). cbn [negb].
    assert (MM : midpoint c w (with_sign binary32 neg (if neg then a else a + 1)) = with_sign binary64 neg b) by (rewrite W; destruct neg; exact MP).
    rewrite MM. set (text := print (with_sign binary64 neg b)).
    destruct (to_string_spec 64 text) as [(-> & F)|(-> & F)]; cbn [andthen]; [|cbn; split; [discriminate|tauto]].
    rewrite (alike_check neg strtof read text); [tauto|]. apply SW. pose proof (halfway_positive a b A I HB). destruct HB as (HB & _). lia. }
  assert (IR : infinity binary32 < 2 ^ 31) by reflexivity.
  split.
  - intros H neg a b A I HB. set (w := with_sign binary32 neg (if neg then a + 1 else a)).
    apply (proj1 (ONE w neg a A I eq_refl)); [|exact HB]. apply H. unfold w. rewrite (with_sign_eq F32).
    change (2 ^ sign_index F32) with (2 ^ 31). destruct neg; lia.
  - intros H w W. destruct (word_parts F32 w W) as (neg & a & E & A). change (2 ^ sign_index F32) with (2 ^ 31) in A.
    cbn [format_of] in E.
    assert (FIN : fp_finite F32 w = (a <? infinity binary32)) by (rewrite E; apply (finite_spec F32); exact A).
    assert (NEG : fp_negative F32 w = neg) by (rewrite E; apply (negative_spec F32); exact A).
    assert (MOD : w mod 2 ^ 31 = a) by (rewrite E; apply (sign_mod F32 neg a A)).
    destruct (Z.ltb_spec a (infinity binary32)) as [FA|FA].
    2:{ unfold check_midpoint. rewrite FIN. reflexivity. }
    destruct neg.
    + destruct (Z.eq_dec a 0) as [Z0|Z0].
      * unfold check_midpoint, next_after. rewrite FIN, NEG, MOD. rewrite Z0 at 1. reflexivity.
      * apply (ONE w true (a - 1)); [lia|lia|rewrite E; f_equal; lia|]. intros b HB. apply (H true (a - 1) b); [lia|lia|exact HB].
    + destruct (Z.eq_dec (a + 1) (infinity binary32)) as [LA|LA].
      * unfold check_midpoint, next_after. rewrite FIN, NEG, MOD. cbv zeta. cbn [negb].
        assert (NZ : a <> 0) by (intros ->; discriminate LA). apply Z.eqb_neq in NZ. rewrite NZ.
        assert (NW : w + 1 = with_sign binary32 false (a + 1)) by (rewrite E, !(with_sign_eq F32); lia). rewrite NW, LA. reflexivity.
      * apply (ONE w false a); [lia|lia|rewrite E; reflexivity|]. intros b HB. apply (H false a b); [lia|lia|exact HB].
Qed.
Print Assumptions exhaustive32_midpoint_exact.

Lemma printed_midpoint print neg b : correct_printf binary64 16 print -> 0 < b < infinity binary64 ->
  let text := print (with_sign binary64 neg b) in
  fits 64 text /\ exists m k ip fp, rounded_digits 16 (magnitude binary64 b) m k /\
    text = minus_if neg (print_scientific 46 16 m k) /\ json_number text neg ip fp k.
Proof.
  intros CP B text. assert (R : 0 <= b < 2 ^ (frac_bits binary64 + exp_bits binary64)).
  { change (infinity binary64) with (2047 * 2 ^ 52) in B. change (frac_bits binary64 + exp_bits binary64) with 63. lia. }
  specialize (CP neg b R). fold text in CP. split.
  - pose proof (printf_length F64 16 neg b text CP). unfold fits. lia.
  - clearbody text. inversion CP as [|n' b' m k B' RD| | | |]; subst; try lia.
    destruct (scientific_json 16 m k neg ltac:(lia) (proj1 RD)) as (ip & fp & J & _).
    exists m, k, ip, fp. split; [exact RD|]. split; [reflexivity|exact J].
Qed.

(** C65: with the library the answer is the answer about strtof: EXIT_SUCCESS exactly
    if strtof reads every printed midpoint as the nearest float. *)
Theorem midpoint_test_exact :
  forall (c : cfg) (u : uc) (print : Z -> list Z) (strtof : list Z -> option Z) (hardware_concurrency : Z),
  unsigned_int hardware_concurrency -> correct_printf binary64 16 print -> no_nan F32 strtof ->
  always_exits exhaustive32_midpoint (check_midpoint c print strtof (library c u F32)) hardware_concurrency
    (forall neg a b, 0 <= a -> a + 1 < infinity binary32 -> halfway a b ->
       strtof (print (with_sign binary64 neg b)) <> None /\
       agrees F32 (strtof (print (with_sign binary64 neg b))) (print (with_sign binary64 neg b))).
Proof.
  intros c u print strtof hc HC CP NN.
  assert (IR : infinity binary32 < 2 ^ 31) by reflexivity.
  assert (LIB : forall neg b, 0 < b < infinity binary64 -> let text := print (with_sign binary64 neg b) in
    exists ip fp e y x, json_number text neg ip fp e /\
      library c u F32 text = Ok {| r_ptr := []; r_ec := x; r_value := Some (with_sign binary32 neg y) |} /\
      x <> InvalidArgument /\ nearest_even binary32 (number_value ip fp e) y).
  { intros neg b B text. destruct (printed_midpoint print neg b CP B) as (F & m & k & ip & fp & _ & _ & J). fold text in F, J.
    destruct (json_read c u F32 text neg ip fp k ltac:(discriminate) J) as (y & x & E & NI & NE); [unfold fits in F; lia|].
    exists ip, fp, k, y, x. repeat split; assumption || (exact (proj1 (proj1 NE))) || exact (proj2 (proj1 NE)) || apply NE. }
  eapply always_exits_iff; [|apply exhaustive32_midpoint_exact; [exact HC|]].
  2:{ intros neg b B. destruct (LIB neg b B) as (ip & fp & e & y & x & J & E & NI & NE). split.
      - intros v EV. destruct (NN _ v EV) as (n & a & -> & A). rewrite with_sign_eq. cbn [format_of] in A.
        change (2 ^ sign_index F32) with (2 ^ 31). destruct n; lia.
      - intros r v ER RV. rewrite E in ER. injection ER as <-. injection RV as <-. destruct NE as (Y & _).
        rewrite (with_sign_eq F32). change (2 ^ sign_index F32) with (2 ^ 31). destruct neg; lia. }
  split; intros H neg a b A I HB; specialize (H neg a b A I HB);
    assert (B : 0 < b < infinity binary64) by (pose proof (halfway_positive a b A I HB); destruct HB as (HB & _); lia);
    destruct (LIB neg b B) as (ip & fp & e & y & x & J & E & NI & NE); set (text := print (with_sign binary64 neg b)) in *.
  - destruct H as (_ & r & y' & s & ER & _ & RV & Y' & ES & SN). rewrite E in ER. injection ER as <-. injection RV as RV.
    assert (y' = y).
    { destruct NE as (Y & _). rewrite !(with_sign_eq F32) in RV. change (2 ^ sign_index F32) with (2 ^ 31) in RV. destruct neg; lia. }
    subst y'. split; [rewrite ES; discriminate|]. intros v n2 ip2 fp2 e2 EV J2. rewrite ES in EV. injection EV as <-.
    exists s, y. split; [reflexivity|].
    destruct (json_read c u F32 text n2 ip2 fp2 e2 ltac:(discriminate) J2) as (y2 & x2 & E2 & _ & NE2).
    { destruct (printed_midpoint print neg b CP B) as (F & _). fold text in F. unfold fits in F. lia. }
    unfold library in E. rewrite E in E2. injection E2 as <- E2. cbn [format_of] in *.
    destruct (with_sign_inj F32 neg y n2 y2 (proj1 NE) (proj1 NE2) E2) as (<- & <-). split; [exact NE2|exact SN].
  - destruct H as (SM & AG). destruct (strtof text) as [v|] eqn:ES; [|destruct SM; reflexivity].
    destruct (AG v neg ip fp e eq_refl J) as (n & y2 & -> & NE2 & SN). cbn [format_of] in *.
    assert (y2 = y) by (apply (nearest_even_unique F32 (number_value ip fp e)); assumption). subst y2.
    split; [apply (printed_midpoint print neg b CP B)|].
    eexists. exists y, n. split; [exact E|]. split; [exact NI|]. split; [reflexivity|]. split; [apply NE|]. split; [exact ES|exact SN].
Qed.
Print Assumptions midpoint_test_exact.

(** C65: with a correct strtof it succeeds: every build, rounding direction, correct
    printf, number of threads and schedule. *)
Theorem midpoint_test_passes :
  forall (c : cfg) (u : uc) (print : Z -> list Z) (strtof : list Z -> option Z) (hardware_concurrency : Z),
  unsigned_int hardware_concurrency -> correct_printf binary64 16 print -> no_nan F32 strtof ->
  correct_reader F32 strtof -> (forall p neg ip fp e, json_number p neg ip fp e -> Z.of_nat (length p) <= 2007 -> strtof p <> None) ->
  always_exits exhaustive32_midpoint (check_midpoint c print strtof (library c u F32)) hardware_concurrency True.
Proof.
  intros c u print strtof hc HC CP NN CR TOT. eapply always_exits_iff; [|apply midpoint_test_exact; assumption].
  split; [auto|]. intros _ neg a b A I HB.
  assert (B : 0 < b < infinity binary64) by (pose proof (halfway_positive a b A I HB); destruct HB as (HB & _); lia).
  destruct (printed_midpoint print neg b CP B) as (F & m & k & ip & fp & _ & _ & J).
  set (text := print (with_sign binary64 neg b)) in *. split; [exact (TOT text neg ip fp k J ltac:(unfold fits in F; lia))|].
  intros v n2 ip2 fp2 e2 EV J2. destruct (CR text n2 ip2 fp2 e2 v J2 ltac:(unfold fits in F; lia) EV) as (y & -> & NE).
  exists n2, y. split; [reflexivity|]. split; [exact NE|left; reflexivity].
Qed.
Print Assumptions midpoint_test_passes.

(** *** random64.cpp *)

(** The i-th number, counted from 0. *)
Definition lehmer_word (seed : Z) (i : nat) : Z := (seed * 0xda942042e4dd58b5 ^ (Z.of_nat i + 1)) mod 2 ^ 128 / 2 ^ 64.

Lemma lehmer_step c x : 0 <= x < 2 ^ 128 ->
  let y := (x * 0xda942042e4dd58b5) mod 2 ^ 128 in
  lehmer64 c (x mod 2 ^ 64, x / 2 ^ 64) = ((y mod 2 ^ 64, y / 2 ^ 64), y / 2 ^ 64).
Proof.
  intros X y. unfold lehmer64. set (g := 0xda942042e4dd58b5) in *. assert (G : 0 <= g < 2 ^ 64) by (unfold g; lia). clearbody g.
  pose proof (Z.div_mod x (2 ^ 64) ltac:(lia)) as DX. pose proof (Z.mod_pos_bound x (2 ^ 64) ltac:(lia)) as MX.
  assert (QX : 0 <= x / 2 ^ 64 < 2 ^ 64) by (split; [apply Z.div_pos; lia|apply Z.div_lt_upper_bound; lia]).
  set (lo := x mod 2 ^ 64) in *. set (hi := x / 2 ^ 64) in *. clearbody lo hi.
  rewrite full_multiplication_spec by assumption. unfold u64.
  rewrite Zplus_mod_idemp_r.
  assert (YE : y = (lo * g) mod 2 ^ 64 + 2 ^ 64 * ((lo * g / 2 ^ 64 + hi * g) mod 2 ^ 64)).
  { unfold y. symmetry. apply Z.mod_unique_pos with ((lo * g / 2 ^ 64 + hi * g) / 2 ^ 64).
    - pose proof (Z.mod_pos_bound (lo * g) (2 ^ 64) ltac:(lia)). pose proof (Z.mod_pos_bound (lo * g / 2 ^ 64 + hi * g) (2 ^ 64) ltac:(lia)). lia.
    - pose proof (Z.div_mod (lo * g) (2 ^ 64) ltac:(lia)). pose proof (Z.div_mod (lo * g / 2 ^ 64 + hi * g) (2 ^ 64) ltac:(lia)).
      rewrite DX. lia. }
  pose proof (Z.mod_pos_bound (lo * g) (2 ^ 64) ltac:(lia)) as ML.
  assert (Y1 : y mod 2 ^ 64 = (lo * g) mod 2 ^ 64).
  { rewrite YE, (Z.mul_comm (2 ^ 64)), Z.mod_add by lia. apply Z.mod_small. exact ML. }
  assert (Y2 : y / 2 ^ 64 = (lo * g / 2 ^ 64 + hi * g) mod 2 ^ 64).
  { rewrite YE, (Z.mul_comm (2 ^ 64)), Z.div_add by lia. rewrite Z.div_small by exact ML. lia. }
  rewrite Y1, Y2. reflexivity.
Qed.

Lemma random_loop_exact size c print read n : forall x errors, 0 <= x < 2 ^ 128 -> 0 <= errors <= 10 ->
  (random_loop size c print read n (x mod 2 ^ 64, x / 2 ^ 64) errors = Done (Some 0) <->
   errors = 0 /\ forall i, (i < n)%nat -> fits size (print (lehmer_word x i)) /\ reads_back F64 read (lehmer_word x i) (print (lehmer_word x i))).
Proof.
  induction n as [|n IH]; intros x errors X E; cbn [random_loop].
  - split; [intros H; injection H as H; split; [exact H|lia]|]. intros (-> & _). reflexivity.
  - rewrite lehmer_step by exact X. set (g := 0xda942042e4dd58b5) in *. set (y := (x * g) mod 2 ^ 128) in *.
    assert (Y : 0 <= y < 2 ^ 128) by (apply Z.mod_pos_bound; lia).
    assert (W0 : lehmer_word x 0 = y / 2 ^ 64) by (unfold lehmer_word; change (Z.of_nat 0 + 1) with 1; rewrite Z.pow_1_r; reflexivity).
    assert (WS : forall i, lehmer_word x (S i) = lehmer_word y i).
    { intros i. unfold lehmer_word. fold g. f_equal. unfold y. rewrite Z.mul_mod_idemp_l by lia. f_equal.
      replace (Z.of_nat (S i) + 1) with (Z.succ (Z.of_nat i + 1)) by lia. rewrite Z.pow_succ_r by lia. ring. }
    assert (SPLIT : (forall i, (i < S n)%nat -> fits size (print (lehmer_word x i)) /\ reads_back F64 read (lehmer_word x i) (print (lehmer_word x i))) <->
      (fits size (print (y / 2 ^ 64)) /\ reads_back F64 read (y / 2 ^ 64) (print (y / 2 ^ 64))) /\
      (forall i, (i < n)%nat -> fits size (print (lehmer_word y i)) /\ reads_back F64 read (lehmer_word y i) (print (lehmer_word y i)))).
    { split.
      - intros H. split; [rewrite <- W0; apply H; lia|]. intros i L. rewrite <- WS. apply H. lia.
      - intros (H0 & H) i L. destruct i as [|i]; [rewrite W0; exact H0|rewrite WS; apply H; lia]. }
    rewrite SPLIT. clear SPLIT W0 WS. pose proof (IH y) as IHy. set (w := y / 2 ^ 64) in *. clearbody w. clear IH.
    destruct (to_string_spec size (print w)) as [(-> & F)|(-> & F)]; cbn [andthen]; [|split; [discriminate|tauto]].
    pose proof (compare_word_match F64 read w (print w)) as CM.
    destruct (compare_word F64 read w (print w)) as [f| |]; cbn [andthen].
    2,3: split; [discriminate|]; intros (_ & (_ & RB) & _); apply CM in RB; discriminate RB.
    assert (BAD : f <> Match -> ~ reads_back F64 read w (print w)) by (intros N RB; apply CM in RB; congruence).
    assert (CONT : f <> Match -> (if 10 <? u64 (errors + 1) then Done None else random_loop size c print read n (y mod 2 ^ 64, w) (u64 (errors + 1))) = Done (Some 0) <->
       errors = 0 /\ (fits size (print w) /\ reads_back F64 read w (print w)) /\
      (forall i, (i < n)%nat -> fits size (print (lehmer_word y i)) /\ reads_back F64 read (lehmer_word y i) (print (lehmer_word y i)))).
    { intros N. specialize (BAD N). rewrite u64_small by lia. destruct (Z.ltb_spec 10 (errors + 1)); [split; [discriminate|tauto]|].
      rewrite IHy by lia. split; [lia|tauto]. }
    destruct f.
    + rewrite IHy by assumption. assert (RB : reads_back F64 read w (print w)) by (apply CM; reflexivity). tauto.
    + apply CONT. discriminate.
    + apply CONT. discriminate.
    + assert (B := BAD ltac:(discriminate)). split; [discriminate|tauto].
    + apply CONT. discriminate.
Qed.

(** C65: random64.cpp and long_random64.cpp with any printf and reader: EXIT_SUCCESS
    exactly if each of the N words, as printed, is read back. *)
Theorem random_values_exact :
  forall (size : Z) (c : cfg) (print : Z -> list Z) (read : list Z -> res result) (N : Z), 0 <= N < 2 ^ 64 ->
  random_values size c print read N = Done true <->
  forall i, (i < Z.to_nat N)%nat ->
    fits size (print (lehmer_word N i)) /\ reads_back F64 read (lehmer_word N i) (print (lehmer_word N i)).
Proof.
  intros size c print read N R. unfold random_values, lehmer64_seed.
  pose proof (random_loop_exact size c print read (Z.to_nat N) N 0 ltac:(lia) ltac:(lia)) as H.
  rewrite Z.mod_small, Z.div_small in H by exact R.
  destruct (random_loop size c print read (Z.to_nat N) (N, 0) 0) as [[e|]| |]; cbn [andthen].
  - split.
    + intros D. injection D as D. apply Z.eqb_eq in D. subst e. apply H. reflexivity.
    + intros A. assert (D : Done (Some e) = Done (Some 0)) by (apply H; split; [reflexivity|exact A]). injection D as ->. reflexivity.
  - split; [discriminate|]. intros A. assert (D : Done (@None Z) = Done (Some 0)) by (apply H; split; [reflexivity|exact A]). discriminate D.
  - split; [discriminate|]. intros A. assert (D : @Undefined (option Z) = Done (Some 0)) by (apply H; split; [reflexivity|exact A]). discriminate D.
  - split; [discriminate|]. intros A. assert (D : @Running (option Z) = Done (Some 0)) by (apply H; split; [reflexivity|exact A]). discriminate D.
Qed.
Print Assumptions random_values_exact.

(** C65: and the library passes, whatever N. *)
Theorem random_values_passes :
  forall (c : cfg) (u : uc) (print : Z -> list Z) (N : Z), 0 <= N < 2 ^ 64 ->
  (correct_printf binary64 16 print -> random_values 64 c print (library c u F64) N = Done true) /\
  (correct_printf binary64 64 print -> random_values 128 c print (library c u F64) N = Done true).
Proof.
  intros c u print N R.
  assert (W : forall i, 0 <= lehmer_word N i < 2 ^ 64).
  { intros i. unfold lehmer_word. set (x := N * _). clearbody x. pose proof (Z.mod_pos_bound x (2 ^ 128) ltac:(lia)).
    split; [apply Z.div_pos; lia|apply Z.div_lt_upper_bound; lia]. }
  split; intros CP; apply random_values_exact; try exact R; intros i _.
  - apply (library_reads c u F64 16); try exact CP; try exact (W i); cbn; lia.
  - apply (library_reads c u F64 64); try exact CP; try exact (W i); cbn; lia.
Qed.
Print Assumptions random_values_passes.

(** *** The hypotheses are met *)

(** A correct strtof. *)
Definition some_strtof (p : list Z) : option Z :=
  match library cfg_x86_64 Char_s F32 p with
  | Ok r => match r_value r with
            | Some v => if (0 <=? v) && (v <? 2 ^ 32) && negb (fp_nan F32 v) then Some v else None
            | None => None
            end
  | UB => None
  end.

Example some_strtof_correct :
  no_nan F32 some_strtof /\ correct_reader F32 some_strtof /\
  (forall p neg ip fp e, json_number p neg ip fp e -> Z.of_nat (length p) <= 2007 -> some_strtof p <> None).
Proof.
  assert (IR : infinity binary32 < 2 ^ 31) by reflexivity.
  assert (KEY : forall p neg ip fp e, json_number p neg ip fp e -> Z.of_nat (length p) <= 2007 ->
    exists b, some_strtof p = Some (with_sign binary32 neg b) /\ nearest_even binary32 (number_value ip fp e) b).
  { intros p neg ip fp e J L. destruct (json_read cfg_x86_64 Char_s F32 p neg ip fp e ltac:(discriminate) J ltac:(lia)) as (b & x & E & _ & NE).
    exists b. split; [|exact NE]. unfold some_strtof, library. rewrite E. cbn [r_value format_of].
    assert (B : 0 <= b <= infinity binary32) by apply NE.
    pose proof (nan_spec F32 neg b) as NS. cbn [format_of] in NS. rewrite NS by (change (2 ^ sign_index F32) with (2 ^ 31); lia).
    replace (infinity binary32 <? b) with false by (symmetry; apply Z.ltb_ge; lia).
    replace (0 <=? with_sign binary32 neg b) with true; [replace (with_sign binary32 neg b <? 2 ^ 32) with true; [reflexivity|]|];
      symmetry; [apply Z.ltb_lt|apply Z.leb_le]; rewrite (with_sign_eq F32); change (2 ^ sign_index F32) with (2 ^ 31); destruct neg; lia. }
  split; [|split].
  - intros p v. unfold some_strtof. destruct (library _ _ _ p) as [r|]; [|discriminate]. destruct (r_value r) as [w|]; [|discriminate].
    destruct (_ && _) eqn:E; [|discriminate]. intros H. injection H as <-. apply andb_true_iff in E. destruct E as (E & N).
    apply andb_true_iff in E. destruct E as (E1 & E2). apply Z.leb_le in E1. apply Z.ltb_lt in E2.
    destruct (word_parts F32 w (conj E1 E2)) as (n & a & -> & A). exists n, a. split; [reflexivity|].
    rewrite nan_spec in N by exact A. apply negb_true_iff, Z.ltb_ge in N. lia.
  - intros p neg ip fp e v J L E. destruct (KEY p neg ip fp e J L) as (b & E' & NE). rewrite E' in E. injection E as <-.
    exists b. split; [reflexivity|exact NE].
  - intros p neg ip fp e J L. destruct (KEY p neg ip fp e J L) as (b & -> & _). discriminate.
Qed.

(** 0.1f is printed as 1.00000001e-01; the next float after 1 and the midpoint; the
    whole test for one word; a wrong strtof is found out. *)
Example sweep_example :
  printf_function F32 8 0x3DCCCCCD = [49; 46; 48; 48; 48; 48; 48; 48; 48; 49; 101; 45; 48; 49] /\
  next_after 0x3F800000 = 0x3F800001 /\ next_after 0xBF800001 = 0xBF800000 /\ next_after 0x80000000 = 1 /\
  midpoint cfg_x86_64 0x3F800000 0x3F800001 = 0x3FF0000010000000 /\
  midpoint cfg_x86_64 0x80000001 0x80000000 = 0xB690000000000000 /\
  check_word 64 (printf_function F32 8) (library cfg_x86_64 Char_s F32) 0xFF7FFFFF = Done Good /\
  check_word 64 (printf_function F32 6) (library cfg_x86_64 Char_s F32) 0x3DCCCCCE = Done Crash /\
  check_word 14 (printf_function F32 8) (library cfg_x86_64 Char_s F32) 0x3DCCCCCD = Undefined /\
  check_midpoint cfg_x86_64 (printf_function F64 16) some_strtof (library cfg_x86_64 Char_s F32) 0x3F800001 = Done Good /\
  check_midpoint cfg_x86_64 (printf_function F64 16) (fun _ => Some 0x3F800002) (library cfg_x86_64 Char_s F32) 0x3F800001 = Done Bad /\
  lehmer_word (2 ^ 32) 0 = 0xda942042 /\
  random_values 64 cfg_x86_64 (printf_function F64 16) (library cfg_x86_64 Char_s F64) 1 = Done true /\
  random_values 10 cfg_x86_64 (printf_function F64 16) (library cfg_x86_64 Char_s F64) 1 = Undefined.
Proof. vm_compute. repeat split. Qed.
