(** The codes of SpecFloat and the formats and the rounding of the Flocq library. *)
From Coq Require Import ZArith QArith Qabs Reals Qreals Lra Lia.
From Flocq Require Import Core IEEE754.Binary IEEE754.Bits.
From Verif Require Import Machine Config Chars Format WordLemmas Rounding ComputeFloat SpecFloat FloatBridge FloatRel.
Open Scope Z_scope.

Definition fprec (t : ftype) : Z := mant_bits t + 1.
Definition femax (t : ftype) : Z := 1 - min_exp t.
Definition femin (t : ftype) : Z := 3 - femax t - fprec t.
Definition fexp_of (t : ftype) : Z -> Z := FLT_exp (femin t) (fprec t).

#[global] Instance fprec_pos t : Prec_gt_0 (fprec t).
Proof. destruct t; reflexivity. Qed.

#[global] Instance fexp_valid t : Valid_exp (fexp_of t).
Proof. unfold fexp_of. apply FLT_exp_valid. apply fprec_pos. Qed.

#[global] Instance fexp_NE t : Exists_NE radix2 (fexp_of t).
Proof. unfold fexp_of. apply exists_NE_FLT. right. destruct t; reflexivity. Qed.

Definition M (t : ftype) (b : Z) : R := Q2R (magnitude (format_of t) b).

Lemma Q2R_IZR n : Q2R (inject_Z n) = IZR n.
Proof. unfold Q2R, inject_Z. cbn [Qnum Qden]. rewrite Rinv_1. apply Rmult_1_r. Qed.

Lemma ulp0_bpow t : Q2R (ulp0 t) = bpow radix2 (femin t).
Proof.
  destruct t; unfold ulp0, femin, femax, fprec, Q2R; cbn [mant_bits min_exp];
   match goal with |- context [qpow 2 ?e] => let v := eval vm_compute in (qpow 2 e) in change (qpow 2 e) with v end;
   cbn [Qnum Qden]; rewrite Rmult_1_l; vm_compute bpow; reflexivity.
Qed.

Lemma M_enc t k m : canon (mant_bits t) k m -> M t (k * 2 ^ mant_bits t + m) = F2R (Float radix2 m (femin t + k)).
Proof.
  intros C. unfold M. pose proof (mb_range t) as Hmb. destruct C as (Hk & Hm & Hc).
  rewrite (Qeq_eqR _ _ (magnitude_units t (k * 2 ^ mant_bits t + m) ltac:(pose proof (pow2_pos (mant_bits t)); nia))).
  rewrite U_enc by (lia || (split; [|split]; assumption)).
  rewrite Q2R_mult, Q2R_IZR, ulp0_bpow. unfold F2R. cbn [Fnum Fexp].
  rewrite bpow_plus, mult_IZR, <- (IZR_Zpower radix2 k Hk). cbn [radix_val radix2]. ring.
Qed.

Lemma M_le t a b : 0 <= a <= b -> (M t a <= M t b)%R.
Proof. intros H. apply Qle_Rle, magnitude_le, H. Qed.
Lemma M_lt t a b : 0 <= a < b -> (M t a < M t b)%R.
Proof. intros H. apply Qlt_Rlt, magnitude_lt, H. Qed.

Lemma M_format t b : 0 <= b -> generic_format radix2 (fexp_of t) (M t b).
Proof.
  intros Hb. pose proof (mb_range t) as Hmb. destruct (U_dec (mant_bits t) b ltac:(lia) Hb) as (k & m & -> & C & L).
  rewrite (M_enc t k m C). apply generic_format_FLT. destruct C as (Hk & Hm & _).
  exists (Float radix2 m (femin t + k)); [reflexivity| |cbn; lia].
  cbn [Fnum]. rewrite Z.abs_eq by lia. exact L.
Qed.

Lemma M_inf t : M t (inf_code t) = bpow radix2 (femax t).
Proof.
  unfold M. destruct t; match goal with |- Q2R ?q = _ => let v := eval vm_compute in (Qred q) in
    rewrite <- (Qeq_eqR _ _ (Qred_correct q)); change (Qred q) with v end;
    unfold Q2R; cbn [Qnum Qden]; rewrite Rinv_1, Rmult_1_r; vm_compute bpow; reflexivity.
Qed.

(** Every non-negative number of the format up to 2^emax has a code. *)
Lemma code_exists t g : generic_format radix2 (fexp_of t) g -> (0 <= g)%R -> (g <= bpow radix2 (femax t))%R ->
  exists k m, canon (mant_bits t) k m /\ m < 2 ^ (mant_bits t + 1) /\ 0 <= k * 2 ^ mant_bits t + m <= inf_code t /\
    M t (k * 2 ^ mant_bits t + m) = g /\
    (Z.even m = true \/ canonical radix2 (fexp_of t) (Float radix2 m (femin t + k))).
Proof.
  intros F P L. destruct (Req_dec g 0) as [G0|G0].
  { exists 0, 0. pose proof (inf_code_pos t). pose proof (mb_range t) as Hmb.
    assert (C0 : canon (mant_bits t) 0 0) by (split; [lia|]; split; [lia|left; reflexivity]).
    split; [exact C0|]. split; [apply pow2_pos; lia|]. split; [lia|]. split; [|left; reflexivity].
    rewrite (M_enc t 0 0 C0), G0. apply F2R_0. }
  pose proof (mb_range t) as Hmb. pose proof (pow2_pos (mant_bits t) ltac:(lia)) as PP.
  destruct (canonical_generic_format radix2 (fexp_of t) g F) as ((m & e) & E & C).
  assert (C' : e = cexp radix2 (fexp_of t) g) by (rewrite E; exact C).
  assert (M0 : 0 <= m).
  { apply (ge_0_F2R radix2 m e). rewrite <- E. exact P. }
  assert (EE : femin t <= e) by (rewrite C'; unfold cexp, fexp_of, FLT_exp; lia).
  assert (MU : m < 2 ^ (mant_bits t + 1)).
  { assert (AB : (Rabs g < bpow radix2 (e + fprec t))%R).
    { apply Rlt_le_trans with (bpow radix2 (mag radix2 g)); [apply bpow_mag_gt|]. apply bpow_le.
      rewrite C'. unfold cexp, fexp_of, FLT_exp. lia. }
    rewrite E, Rabs_pos_eq in AB by (rewrite <- E; exact P). unfold F2R in AB. cbn [Fnum Fexp] in AB.
    rewrite Z.add_comm, bpow_plus in AB. apply Rmult_lt_reg_r in AB; [|apply bpow_gt_0].
    rewrite <- (IZR_Zpower radix2) in AB by (unfold fprec; lia). apply lt_IZR in AB. exact AB. }
  assert (CN : canon (mant_bits t) (e - femin t) m).
  { split; [lia|]. split; [lia|]. destruct (Z.eq_dec e (femin t)) as [->|NE]; [left; lia|right].
    assert (EM : e = mag radix2 g - fprec t).
    { assert (e = Z.max (mag radix2 g - fprec t) (femin t)) by exact C'. lia. }
    assert (AB : (bpow radix2 (mag radix2 g - 1) <= Rabs g)%R) by (apply bpow_mag_le; exact G0).
    rewrite Rabs_pos_eq in AB by exact P.
    replace (mag radix2 g - 1)%Z with (mant_bits t + e)%Z in AB by (unfold fprec in EM; lia).
    clear - AB E Hmb. rewrite E in AB. unfold F2R in AB. cbn [Fnum Fexp] in AB.
    rewrite bpow_plus in AB. apply Rmult_le_reg_r in AB; [|apply bpow_gt_0].
    rewrite <- (IZR_Zpower radix2) in AB by lia. apply le_IZR in AB. exact AB. }
  assert (EV : M t ((e - femin t) * 2 ^ mant_bits t + m) = g).
  { rewrite (M_enc t _ _ CN), E. f_equal. f_equal. lia. }
  exists (e - femin t), m. split; [exact CN|]. split; [exact MU|].
  assert (B0 : 0 <= (e - femin t) * 2 ^ mant_bits t + m) by (destruct CN; nia).
  split; [|split; [exact EV|right; replace (femin t + (e - femin t)) with e by lia; exact C]].
  split; [exact B0|].
  destruct (Z_le_gt_dec ((e - femin t) * 2 ^ mant_bits t + m) (inf_code t)) as [G|G]; [exact G|exfalso].
  pose proof (inf_code_pos t). pose proof (M_lt t (inf_code t) ((e - femin t) * 2 ^ mant_bits t + m) ltac:(lia)) as ML.
  rewrite M_inf, EV in ML. lra.
Qed.

Lemma Q2R_dist x t b : Q2R (Qabs (x - magnitude (format_of t) b)) = Rabs (Q2R x - M t b).
Proof.
  unfold M. rewrite <- Q2R_minus. generalize (x - magnitude (format_of t) b)%Q. intros q.
  apply Qabs_case; intros H.
  - rewrite Rabs_pos_eq; [reflexivity|]. apply Qle_Rle in H. rewrite RMicromega.Q2R_0 in H. exact H.
  - rewrite Rabs_left1; [apply Q2R_opp|]. apply Qle_Rle in H. rewrite RMicromega.Q2R_0 in H. exact H.
Qed.

(** "Nearest, ties to even" over codes is Flocq's rounding. *)
Theorem nearest_even_round t x b :
  (0 <= x)%Q -> (Q2R x <= bpow radix2 (femax t))%R -> nearest_even (format_of t) x b ->
  round radix2 (fexp_of t) ZnearestE (Q2R x) = M t b.
Proof.
  intros Hx HU (RB & NE). rewrite inf_inf in RB, NE. pose proof (mb_range t) as Hmb.
  set (y := Q2R x) in *. set (r := round radix2 (fexp_of t) ZnearestE y).
  assert (Py : (0 <= y)%R) by (unfold y; rewrite <- RMicromega.Q2R_0; apply Qle_Rle; exact Hx).
  assert (Fr : generic_format radix2 (fexp_of t) r) by (apply generic_format_round; typeclasses eauto).
  assert (R0 : (0 <= r)%R).
  { apply round_ge_generic; [typeclasses eauto|typeclasses eauto|apply generic_format_0|exact Py]. }
  assert (RU : (r <= bpow radix2 (femax t))%R).
  { apply round_le_generic; [typeclasses eauto|typeclasses eauto| |exact HU]. rewrite <- M_inf. apply M_format.
    pose proof (inf_code_pos t). lia. }
  destruct (code_exists t r Fr R0 RU) as (k & m & CN & ML & RB' & EM & CAN).
  set (b' := k * 2 ^ mant_bits t + m) in *.
  pose proof (round_NE_pt radix2 (fexp_of t) y) as ((_ & RN) & RE). fold r in RN, RE.
  pose proof (RN (M t b) (M_format t b ltac:(lia))) as D.
  rewrite (Rabs_minus_sym r), (Rabs_minus_sym (M t b)) in D. rewrite <- EM in D.
  specialize (NE b' RB'). destruct NE as [NE|(NE & EB)].
  { apply Qlt_Rlt in NE. rewrite !Q2R_dist in NE. fold y in NE. lra. }
  apply Qeq_eqR in NE. rewrite !Q2R_dist in NE. fold y in NE.
  destruct (Z.eq_dec b b') as [->|NB]; [symmetry; exact EM|].
  destruct EB as [EB|EB]; [contradiction|].
  destruct RE as [(g & EG & CG & PG)|UN].
  - (* both even: there is a code between them *)
    exfalso. assert (PM : Z.even m = true).
    { destruct CAN as [PM|CAN]; [exact PM|]. assert (g = Float radix2 m (femin t + k)).
      { apply (canonical_unique radix2 (fexp_of t)); [exact CG|exact CAN|]. rewrite <- EG, <- (M_enc t k m CN). symmetry. exact EM. }
      subst g. exact PG. }
    assert (PB : Z.even b' = true).
    { unfold b'. rewrite Z.even_add, Z.even_mul, PM. rewrite (Z.even_pow 2) by lia. cbn. rewrite orb_true_r. reflexivity. }
    clear - NE NB EB PB RB RB' RN Fr EM.
    assert (GAP : b + 1 < b' \/ b' + 1 < b).
    { destruct (Z.eq_dec b' (b + 1)) as [E1|E1]; [rewrite E1, Z.even_add, EB in PB; discriminate PB|].
      destruct (Z.eq_dec b (b' + 1)) as [E2|E2]; [rewrite E2, Z.even_add, PB in EB; discriminate EB|]. lia. }
    set (c := Z.min b b' + 1).
    assert (C0 : 0 <= c) by (unfold c; lia).
    pose proof (RN (M t c) (M_format t c C0)) as D. rewrite (Rabs_minus_sym r), (Rabs_minus_sym (M t c)), <- EM in D.
    assert (BET : (M t b < M t c < M t b')%R \/ (M t b' < M t c < M t b)%R).
    { destruct GAP as [G|G]; [left|right]; split; apply M_lt; unfold c; lia. }
    revert D NE. destruct BET as [(B1 & B2)|(B1 & B2)]; unfold Rabs; repeat destruct Rcase_abs; intros; lra.
  - symmetry. apply UN. split; [apply M_format; lia|]. intros g Fg.
    rewrite (Rabs_minus_sym (M t b)), NE, (Rabs_minus_sym y), EM. apply RN, Fg.
Qed.
