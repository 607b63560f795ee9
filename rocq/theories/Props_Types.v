(** Property C48: the destination type decides about the value and its range
    only; what is accepted and how far it is read does not depend on it. *)
From Verif Require Import Machine Config Chars Format ParseNumber DecToBin FromChars WordLemmas
  Rounding ComputeFloat SpecFloat FloatBridge Clinger Pow10 SpecGrammar SpecApi SpecRel Scan ParseSpec Special
  SlowPath ManyDigits Saturate FloatMaster FloatApi FloatRel Props_Pow10.
From Coq Require Import QArith Qabs Lqa.
Open Scope Z_scope.

(** Both destinations are left alone, or both are written and have the same sign. *)
Definition same_sign_written (f f' : format) (v v' : option Z) : Prop :=
  (v = None /\ v' = None) \/
  exists neg b b', v = Some (with_sign f neg b) /\ v' = Some (with_sign f' neg b') /\
    0 <= b < 2 ^ (frac_bits f + exp_bits f) /\ 0 <= b' < 2 ^ (frac_bits f' + exp_bits f').

Lemma code_small t b : 0 <= b <= inf_code t -> 0 <= b < 2 ^ (frac_bits (format_of t) + exp_bits (format_of t)).
Proof. intros (H1 & H2). split; [exact H1|]. eapply Z.le_lt_trans; [exact H2|]. destruct t; vm_compute; reflexivity. Qed.
Lemma special_small t k : 0 <= special_code t k < 2 ^ (frac_bits (format_of t) + exp_bits (format_of t)).
Proof. destruct t, k; vm_compute; (split; [discriminate|reflexivity]). Qed.

(** C48 *)
Theorem from_chars_type_independent :
  forall (c : cfg) (u : uc) (t t' : ftype) (o : options) (s : list Z), good_text c u o s ->
  exists r r', from_chars_float_advanced c u t s o = Ok r /\ from_chars_float_advanced c u t' s o = Ok r' /\
    r_ptr r = r_ptr r' /\ (r_ec r = InvalidArgument <-> r_ec r' = InvalidArgument) /\
    same_sign_written (format_of t) (format_of t') (r_value r) (r_value r').
Proof.
  intros c u t t' o s G. destruct (starts_exists c o s) as (s0 & SA).
  destruct (number_or_not c u o s s0 G SA) as [(neg & ip & fp & e & rest & N)|NN].
  - destruct (float_number_clamped c u t o s s0 neg ip fp e rest (good_text_ok _ _ _ _ G) SA N) as (e1 & b1 & x1 & CL1 & E1 & R1 & O1).
    destruct (float_number_clamped c u t' o s s0 neg ip fp e rest (good_text_ok _ _ _ _ G) SA N) as (e2 & b2 & x2 & CL2 & E2 & R2 & O2).
    eexists. eexists. split; [exact E1|]. split; [exact E2|]. split; [reflexivity|]. cbn [r_ec r_value].
    assert (NI : forall t W q b x, ok_ec c t W q b x -> x <> InvalidArgument).
    { clear. intros t W q b x (O1 & O2). destruct (quiet_dec c t W q) as [Q|Q]; [rewrite (O1 Q); discriminate|].
      rewrite (O2 Q). unfold range_code. destruct (_ || _); discriminate. }
    split; [split; intros X; [destruct (NI _ _ _ _ _ O1 X)|destruct (NI _ _ _ _ _ O2 X)]|].
    right. exists neg, b1, b2. split; [reflexivity|]. split; [reflexivity|].
    split; apply code_small; eapply near_range; eassumption.
  - destruct (other_main c u t o s s0 G SA NN) as [(A1 & E1)|[(A1 & NS1 & E1)|(n1 & k1 & r1 & A1 & SP1 & E1)]];
    destruct (other_main c u t' o s s0 G SA NN) as [(A2 & E2)|[(A2 & NS2 & E2)|(n2 & k2 & r2 & A2 & SP2 & E2)]];
      try congruence; try (eexists; eexists; split; [exact E1|]; split; [exact E2|]; split; [reflexivity|]; split; [reflexivity|left; split; reflexivity]).
    + exfalso. exact (NS1 _ _ _ SP2).
    + exfalso. exact (NS2 _ _ _ SP1).
    + destruct (special_unique _ _ _ _ _ _ _ _ SP1 SP2) as (<- & <- & <-).
      eexists; eexists; split; [exact E1|]; split; [exact E2|]; split; [reflexivity|]; split; [split; discriminate|].
      right. exists n1, (special_code t k1), (special_code t' k1). split; [reflexivity|]. split; [reflexivity|].
      split; apply special_small.
Qed.
Print Assumptions from_chars_type_independent.

(** [t] has more precision and range than [t']. *)
Definition wider (t t' : ftype) : Prop :=
  match t, t' with
  | F64, (F32 | F16 | BF16) | F32, (F16 | BF16) => True
  | _, _ => False
  end.

Lemma wider_zero t t' x b' : wider t t' -> near t x 0 -> near t' x b' -> b' = 0.
Proof.
  intros W N N'. destruct (Z.eq_dec b' 0) as [E|E]; [exact E|exfalso].
  apply nearest_of in N. apply nearest_of in N'. destruct N as (_ & N), N' as (R' & N').
  assert (P1 : 0 <= 1 <= infinity (format_of t)) by (destruct t; vm_compute; split; discriminate).
  pose proof (closer_low _ _ _ (magnitude_lt t 0 1 ltac:(lia)) (N 1 P1)) as C1.
  pose proof (closer_high _ _ _ (magnitude_lt t' 0 b' ltac:(lia)) (N' 0 ltac:(lia))) as C2.
  pose proof (magnitude_le t' 1 b' ltac:(lia)) as M.
  assert (MW : (magnitude (format_of t) 0 + magnitude (format_of t) 1 < magnitude (format_of t') 0 + magnitude (format_of t') 1)%Q)
    by (destruct t, t'; try contradiction; vm_compute; reflexivity).
  lra.
Qed.

Lemma wider_inf t t' x b' : wider t t' -> near t x (inf_code t) -> near t' x b' -> b' = inf_code t'.
Proof.
  intros W N N'. pose proof (near_range _ _ _ N') as RB. destruct (Z.eq_dec b' (inf_code t')) as [E|E]; [exact E|exfalso].
  apply nearest_of in N. apply nearest_of in N'. destruct N as (_ & N), N' as (R' & N').
  rewrite inf_inf in *.
  assert (I1 : 1 <= inf_code t) by (destruct t; vm_compute; discriminate).
  assert (I2 : 1 <= inf_code t') by (destruct t'; vm_compute; discriminate).
  pose proof (closer_high _ _ _ (magnitude_lt t (inf_code t - 1) (inf_code t) ltac:(lia)) (N (inf_code t - 1) ltac:(lia))) as C1.
  pose proof (closer_low _ _ _ (magnitude_lt t' b' (inf_code t') ltac:(lia)) (N' (inf_code t') ltac:(lia))) as C2.
  pose proof (magnitude_le t' b' (inf_code t' - 1) ltac:(lia)) as M.
  assert (MW : (magnitude (format_of t') (inf_code t' - 1) + magnitude (format_of t') (inf_code t') <
                magnitude (format_of t) (inf_code t - 1) + magnitude (format_of t) (inf_code t))%Q)
    by (destruct t, t'; try contradiction; vm_compute; reflexivity).
  lra.
Qed.

Lemma wider_quiet c t t' V q b : wider t t' -> quiet c t' V q -> near t (dec V q) b -> range_code t V b <> OutOfRange.
Proof.
  intros W (_ & _ & _ & _ & HV & HQ) N. apply nearest_of in N. destruct N as (RN & N).
  assert (U : (dec V q <= inject_Z (2048 * 10000))%Q /\ (0 < V -> (1 <= dec V q)%Q)).
  { change (dec V q) with (inject_Z V * Qpower 10 q)%Q.
    assert (V1 : (inject_Z V <= inject_Z 2048)%Q) by (rewrite <- Zle_Qle; exact HV).
    assert (V2 : 0 < V -> (inject_Z 1 <= inject_Z V)%Q) by (intros; rewrite <- Zle_Qle; lia).
    assert (HC : q = 0 \/ q = 1 \/ q = 2 \/ q = 3 \/ q = 4) by lia.
    change (inject_Z 2048) with 2048%Q in V1. change (inject_Z 1) with 1%Q in V2. change (inject_Z (2048 * 10000)) with 20480000%Q.
    destruct HC as [->|[->|[->|[->| ->]]]];
      [change (Qpower 10 0) with 1%Q|change (Qpower 10 1) with 10%Q|change (Qpower 10 2) with 100%Q|change (Qpower 10 3) with 1000%Q|change (Qpower 10 4) with 10000%Q];
      (split; [lra|intros P; specialize (V2 P); lra]). }
  destruct U as (U1 & U2). unfold range_code. destruct (_ || _) eqn:T; [|discriminate]. exfalso.
  apply orb_true_iff in T. destruct T as [T|T].
  - apply andb_true_iff in T. destruct T as (T1 & T2). apply Z.eqb_eq in T2. subst b. apply Z.ltb_lt in T1.
    assert (P1 : 0 <= 1 <= infinity (format_of t)) by (destruct t; vm_compute; split; discriminate).
    pose proof (closer_low _ _ _ (magnitude_lt t 0 1 ltac:(lia)) (N 1 P1)) as C1. specialize (U2 T1).
    assert (MW : (magnitude (format_of t) 0 + magnitude (format_of t) 1 < 1)%Q) by (destruct t; vm_compute; reflexivity).
    lra.
  - apply Z.eqb_eq in T. subst b. rewrite inf_inf in *.
    assert (I1 : 1 <= inf_code t) by (destruct t; vm_compute; discriminate).
    pose proof (closer_high _ _ _ (magnitude_lt t (inf_code t - 1) (inf_code t) ltac:(lia)) (N (inf_code t - 1) ltac:(lia))) as C1.
    assert (MW : (2 * inject_Z (2048 * 10000) < magnitude (format_of t) (inf_code t - 1) + magnitude (format_of t) (inf_code t))%Q)
      by (destruct t, t'; try contradiction; vm_compute; reflexivity).
    lra.
Qed.

(** C48: what overflows or vanishes in the wider type does so in the narrower. *)
Theorem from_chars_wider_type :
  forall (c : cfg) (u : uc) (t t' : ftype) (o : options) (s : list Z) (r r' : result),
  good_text c u o s -> wider t t' ->
  from_chars_float_advanced c u t s o = Ok r -> from_chars_float_advanced c u t' s o = Ok r' ->
  (r_ec r = OutOfRange -> r_ec r' = OutOfRange) /\
  (forall neg, r_value r = Some (with_sign (format_of t) neg (infinity (format_of t))) ->
     r_value r' = Some (with_sign (format_of t') neg (infinity (format_of t')))) /\
  (forall neg, r_value r = Some (with_sign (format_of t) neg 0) -> r_value r' = Some (with_sign (format_of t') neg 0)).
Proof.
  intros c u t t' o s r r' G W ER ER'. destruct (starts_exists c o s) as (s0 & SA).
  assert (WS : forall a b n m, with_sign (format_of t) n a = with_sign (format_of t) m b ->
    0 <= a < 2 ^ (frac_bits (format_of t) + exp_bits (format_of t)) ->
    0 <= b < 2 ^ (frac_bits (format_of t) + exp_bits (format_of t)) -> n = m /\ a = b).
  { intros a b n m. unfold with_sign. set (K := 2 ^ _). clearbody K. destruct n, m; intros; split; (reflexivity || lia). }
  destruct (number_or_not c u o s s0 G SA) as [(neg & ip & fp & e & rest & N)|NN].
  - destruct (float_number_clamped c u t o s s0 neg ip fp e rest (good_text_ok _ _ _ _ G) SA N) as (e1 & b1 & x1 & CL1 & E1 & R1 & O1).
    destruct (float_number_clamped c u t' o s s0 neg ip fp e rest (good_text_ok _ _ _ _ G) SA N) as (e2 & b2 & x2 & CL2 & E2 & R2 & O2).
    pose proof (clamp_unique _ _ _ CL1 CL2). subst e2. rewrite E1 in ER. rewrite E2 in ER'.
    assert (Er : r = {| r_ptr := rest; r_ec := x1; r_value := Some (with_sign (format_of t) neg b1) |}) by congruence.
    assert (Er' : r' = {| r_ptr := rest; r_ec := x2; r_value := Some (with_sign (format_of t') neg b2) |}) by congruence.
    subst r r'. clear ER ER' E1 E2. cbn [r_ec r_value].
    set (V := digits_value (ip ++ fp)) in *. set (q := e1 - Z.of_nat (length fp)) in *.
    pose proof (code_small t b1 (near_range _ _ _ R1)) as B1.
    split; [|split].
    + intros X. destruct O1 as (_ & O1). rewrite O1 in X by (intros (T & _); destruct t; try contradiction; discriminate T).
      assert (RC : range_code t' V b2 = OutOfRange).
      { unfold range_code in *. destruct (_ || _) eqn:T in X; [|discriminate X]. clear X.
        apply orb_true_iff in T. destruct T as [T|T].
        - apply andb_true_iff in T. destruct T as (T1 & T2). apply Z.eqb_eq in T2. subst b1.
          rewrite (wider_zero t t' _ b2 W R1 R2), T1. reflexivity.
        - apply Z.eqb_eq in T. subst b1. rewrite (wider_inf t t' _ b2 W R1 R2), Z.eqb_refl, orb_true_r. reflexivity. }
      destruct (quiet_dec c t' V q) as [Q|Q]; [exfalso|rewrite (proj2 O2 Q); exact RC].
      exact (wider_quiet c t t' V q b1 W Q R1 X).
    + intros n X. assert (X' : with_sign (format_of t) neg b1 = with_sign (format_of t) n (infinity (format_of t))) by congruence.
      rewrite inf_inf in *.
      destruct (WS _ _ _ _ X' B1 (code_small t (inf_code t) ltac:(split; [destruct t; vm_compute; discriminate|apply Z.le_refl]))) as (<- & ->).
      rewrite (wider_inf t t' _ b2 W R1 R2). reflexivity.
    + intros n X. assert (X' : with_sign (format_of t) neg b1 = with_sign (format_of t) n 0) by congruence.
      destruct (WS _ _ _ _ X' B1 ltac:(split; [lia|destruct t; reflexivity])) as (<- & ->).
      rewrite (wider_zero t t' _ b2 W R1 R2). reflexivity.
  - destruct (other_main c u t o s s0 G SA NN) as [(A1 & E1)|[(A1 & NS1 & E1)|(n1 & k1 & r1 & A1 & SP1 & E1)]];
    destruct (other_main c u t' o s s0 G SA NN) as [(A2 & E2)|[(A2 & NS2 & E2)|(n2 & k2 & r2 & A2 & SP2 & E2)]];
      try congruence; rewrite E1 in ER; rewrite E2 in ER'.
    1,2: assert (Er : r = {| r_ptr := s0; r_ec := InvalidArgument; r_value := None |}) by congruence;
      subst r; cbn; repeat split; discriminate.
    + exfalso. exact (NS1 _ _ _ SP2).
    + exfalso. exact (NS2 _ _ _ SP1).
    + destruct (special_unique _ _ _ _ _ _ _ _ SP1 SP2) as (<- & <- & <-).
      assert (Er : r = {| r_ptr := r1; r_ec := Success; r_value := Some (with_sign (format_of t) n1 (special_code t k1)) |}) by congruence.
      assert (Er' : r' = {| r_ptr := r1; r_ec := Success; r_value := Some (with_sign (format_of t') n1 (special_code t' k1)) |}) by congruence.
      subst r r'. cbn [r_ec r_value]. split; [discriminate|]. split.
      * intros n X. assert (X' : with_sign (format_of t) n1 (special_code t k1) = with_sign (format_of t) n (infinity (format_of t))) by congruence.
        rewrite inf_inf in *.
        destruct (WS _ _ _ _ X' (special_small _ _) (code_small t (inf_code t) ltac:(split; [destruct t; vm_compute; discriminate|apply Z.le_refl]))) as (<- & E).
        destruct k1; [destruct t'; reflexivity|destruct t; discriminate E].
      * intros n X. assert (X' : with_sign (format_of t) n1 (special_code t k1) = with_sign (format_of t) n 0) by congruence.
        destruct (WS _ _ _ _ X' (special_small _ _) ltac:(split; [lia|destruct t; reflexivity])) as (_ & E).
        destruct t, k1; discriminate E.
Qed.
Print Assumptions from_chars_wider_type.

(** 1e39 is a double and too large for the three others; it is read to the same place. *)
Example types_example :
  good_text cfg_x86_64 Char_s general [45; 49; 101; 51; 57; 33] /\ wider F64 F32 /\
  from_chars_float_advanced cfg_x86_64 Char_s F64 [45; 49; 101; 51; 57; 33] general =
    Ok {| r_ptr := [33]; r_ec := Success; r_value := Some 0xc8078287f49c4a1d |} /\
  from_chars_float_advanced cfg_x86_64 Char_s F32 [45; 49; 101; 51; 57; 33] general =
    Ok {| r_ptr := [33]; r_ec := OutOfRange; r_value := Some 0xFF800000 |} /\
  from_chars_float_advanced cfg_x86_64 Char_s F16 [45; 49; 101; 51; 57; 33] general =
    Ok {| r_ptr := [33]; r_ec := OutOfRange; r_value := Some 0xFC00 |}.
Proof.
  split; [|vm_compute; repeat split; reflexivity].
  split; [repeat constructor; vm_compute; intuition congruence|]. split; [discriminate|]. split; [vm_compute; discriminate|reflexivity].
Qed.
