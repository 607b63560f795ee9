(** Property C61: the 128-bit table of powers of five.  It is the output of the
    generator kept with the sources; each entry is the power of five rounded in
    the stated direction; no product of an entry with a significand is ambiguous,
    as script/mushtak_lemire.py reports.  Statements use the table, the model of
    the two scripts, and rational arithmetic. *)
From Verif Require Import Machine Config FastTable DecToBin WordLemmas Rounding FloatBridge
  EiselTable TableScript TableProof TableProof2 Legendre.
From Coq Require Import QArith Lqa.
Open Scope Z_scope.

(** The 128-bit number the table holds for 5^q: two words, high word first *)
Definition entry (q T : Z) : Prop :=
  exists hi lo, nth_error power_of_five_128 (Z.to_nat (2 * (q + 342))) = Some hi /\
    nth_error power_of_five_128 (Z.to_nat (2 * (q + 342) + 1)) = Some lo /\
    0 <= lo < 2 ^ 64 /\ T = hi * 2 ^ 64 + lo.

(** 5^q multiplied by a power of two *)
Definition scaled (q e : Z) : Q := Qmult (Qpower 5 q) (Qpower 2 e).

(** The power of two that makes it a 128-bit number *)
Definition fits (q e : Z) : Prop :=
  Qle (inject_Z (2 ^ 127)) (scaled q e) /\ Qlt (scaled q e) (inject_Z (2 ^ 128)).

(** *** The power of five as a fraction *)
Lemma qpow5 q : (Qpower 5 q == qpow 5 q)%Q.
Proof. Transparent qpow. reflexivity. Opaque qpow. Qed.

Lemma scaled_fraction q : (scaled q (te_E q) * [te_B q]q == [te_A q]q)%Q.
Proof.
  unfold scaled, te_A, te_B. rewrite qpow5, qpow_Qpower. set (e := te_E q). clearbody e.
  rewrite !inject_Z_mult.
  assert (W : forall a k, 0 < a -> (qpow a k * [a ^ Z.max (- k) 0]q == [a ^ Z.max k 0]q)%Q).
  { intros a k Ha. rewrite <- !qpow_Z by lia. rewrite <- qpow_add by exact Ha.
    replace (k + Z.max (- k) 0) with (Z.max k 0) by lia. reflexivity. }
  rewrite <- (W 5 q), <- (W 2 e) by lia. ring.
Qed.

Lemma scaled_pos q e : (0 < scaled q e)%Q.
Proof. unfold scaled. rewrite qpow5, qpow_Qpower. apply Qmult_lt_0_compat; apply qpow_pos; lia. Qed.

Lemma scaled_le q n : n * te_B q <= te_A q -> Qle (inject_Z n) (scaled q (te_E q)).
Proof.
  intros H. apply (Qmult_le_r _ _ [te_B q]q); [apply (proj1 (q_pos _)); apply te_B_pos|].
  rewrite scaled_fraction, <- inject_Z_mult. rewrite <- Zle_Qle. exact H.
Qed.

Lemma scaled_lt q n : n * te_B q < te_A q -> Qlt (inject_Z n) (scaled q (te_E q)).
Proof.
  intros H. apply (Qmult_lt_r _ _ [te_B q]q); [apply (proj1 (q_pos _)); apply te_B_pos|].
  rewrite scaled_fraction, <- inject_Z_mult. rewrite <- Zlt_Qlt. exact H.
Qed.

Lemma scaled_gt q n : te_A q < n * te_B q -> Qlt (scaled q (te_E q)) (inject_Z n).
Proof.
  intros H. apply (Qmult_lt_r _ _ [te_B q]q); [apply (proj1 (q_pos _)); apply te_B_pos|].
  rewrite scaled_fraction, <- inject_Z_mult. rewrite <- Zlt_Qlt. exact H.
Qed.

Lemma scaled_eq q n : n * te_B q = te_A q -> Qeq (scaled q (te_E q)) (inject_Z n).
Proof.
  intros H. apply (Qmult_inj_r _ _ [te_B q]q).
  - intros E. pose proof (proj1 (q_pos _) (te_B_pos q)) as P. rewrite E in P. discriminate P.
  - rewrite scaled_fraction, <- inject_Z_mult, H. reflexivity.
Qed.

Lemma fits_unique q e e' : fits q e -> fits q e' -> e = e'.
Proof.
  assert (W : forall e e', fits q e -> fits q e' -> e' <= e).
  { clear e e'. intros e e' (L & _) (_ & U').
    destruct (Z_le_gt_dec e' e) as [|G]; [assumption|exfalso].
    unfold scaled in L, U'. rewrite qpow_Qpower in L, U'.
    replace e' with ((e + 1) + (e' - e - 1)) in U' by lia.
    rewrite qpow_add, (qpow_add 2 e 1) in U' by lia.
    pose proof (qpow_le 2 0 (e' - e - 1) ltac:(lia) ltac:(lia)) as P. rewrite qpow_0 in P.
    assert (T2 : (qpow 2 1 == 2)%Q) by (rewrite qpow_Z by lia; reflexivity). rewrite T2 in U'.
    assert (E : Qeq (inject_Z (2 ^ 128)) (Qmult 2 (inject_Z (2 ^ 127)))) by reflexivity.
    rewrite E in U'. set (x := (Qpower 5 q * qpow 2 e)%Q) in *.
    set (y := qpow 2 (e' - e - 1)) in *.
    assert (F : Qeq (Qmult (Qpower 5 q) (Qmult (Qmult (qpow 2 e) 2) y)) (Qmult (Qmult 2 x) y))
      by (unfold x; ring).
    rewrite F in U'. clear F E.
    assert (X0 : (0 < x)%Q) by (eapply Qlt_le_trans; [|exact L]; reflexivity).
    set (M := inject_Z (2 ^ 127)) in *. clearbody x y M. nra. }
  intros H H'. pose proof (W _ _ H H'). pose proof (W _ _ H' H). lia.
Qed.

Lemma entry_unique q T T' : entry q T -> entry q T' -> T = T'.
Proof.
  intros (h & l & H1 & H2 & _ & ->) (h' & l' & H1' & H2' & _ & ->).
  rewrite H1 in H1'. injection H1' as <-. rewrite H2 in H2'. injection H2' as <-. reflexivity.
Qed.

Lemma entry_range q T : -342 <= q <= 308 -> entry q T ->
  exists Th Tl, T = Th * 2 ^ 64 + Tl /\ entry_ok q Th Tl.
Proof.
  intros Hq (h & l & H1 & H2 & _ & ->). exists h, l. split; [reflexivity|].
  destruct (table_lookup (Z.to_nat (q + 342)) h l) as (_ & E).
  - rewrite <- H1. f_equal. lia.
  - rewrite <- H2. f_equal. lia.
  - replace (-342 + Z.of_nat (Z.to_nat (q + 342))) with q in E by lia. exact E.
Qed.

Lemma entry_exists q : -342 <= q <= 308 -> exists T, entry q T.
Proof.
  intros Hq. destruct (table_entry q Hq) as (h & l & H1 & H2 & E).
  apply nth_res_inv in H1. apply nth_res_inv in H2.
  exists (h * 2 ^ 64 + l), h, l. split; [exact H1|]. split; [exact H2|].
  split; [exact (eo_Tl _ _ _ E)|reflexivity].
Qed.

(** *** Strictness: 5^q is not a dyadic fraction of 128 bits *)
Lemma pow2_mod5 n : 0 <= n -> 2 ^ n mod 5 <> 0.
Proof.
  intros H. revert n H. apply natlike_ind; [discriminate|]. intros n Hn IH.
  rewrite Z.pow_succ_r by exact Hn. intros E. apply IH.
  pose proof (Z.mod_pos_bound (2 ^ n) 5 ltac:(lia)).
  rewrite <- Z.mul_mod_idemp_r in E by lia.
  set (r := 2 ^ n mod 5) in *. clearbody r.
  assert (r = 0 \/ r = 1 \/ r = 2 \/ r = 3 \/ r = 4) as [-> | [-> | [-> | [-> | ->]]]] by lia;
    try reflexivity; discriminate E.
Qed.

Lemma inexact_neg q T : q < 0 -> T * te_B q <> te_A q.
Proof.
  intros Hq E. unfold te_A, te_B in E.
  rewrite (Z.max_l (- q) 0), (Z.max_r q 0) in E by lia.
  change (5 ^ 0) with 1 in E. rewrite Z.mul_1_l in E.
  apply (pow2_mod5 (Z.max (te_E q) 0)); [lia|]. rewrite <- E.
  replace (- q) with (Z.succ (- q - 1)) by lia. rewrite Z.pow_succ_r by lia.
  match goal with |- (T * (5 * ?a * ?b)) mod 5 = 0 => replace (T * (5 * a * b)) with (T * a * b * 5) by ring end.
  apply Z.mod_mul. lia.
Qed.

Lemma inexact_pos q T : 55 < q -> T < 2 ^ 128 -> T * te_B q <> te_A q.
Proof.
  intros Hq HT E. unfold te_A, te_B in E.
  rewrite (Z.max_r (- q) 0), (Z.max_l q 0) in E by lia.
  change (5 ^ 0) with 1 in E. rewrite Z.mul_1_l in E.
  assert (P : 2 ^ 128 < 5 ^ q).
  { apply Z.lt_le_trans with (5 ^ 56); [reflexivity|]. apply Z.pow_le_mono_r; lia. }
  destruct (Z_le_gt_dec 0 (te_E q)) as [L|G].
  - rewrite (Z.max_r (- te_E q) 0), (Z.max_l (te_E q) 0) in E by lia.
    change (2 ^ 0) with 1 in E. rewrite Z.mul_1_r in E.
    assert (0 < 2 ^ te_E q) by (apply Z.pow_pos_nonneg; lia).
    assert (5 ^ q * 1 <= 5 ^ q * 2 ^ te_E q) by (apply Z.mul_le_mono_nonneg_l; lia). lia.
  - rewrite (Z.max_l (- te_E q) 0), (Z.max_r (te_E q) 0) in E by lia.
    change (2 ^ 0) with 1 in E. rewrite Z.mul_1_r in E.
    pose proof (pow5_odd q ltac:(lia)) as O. rewrite <- E, Z.odd_mul, Z.odd_pow in O by lia.
    rewrite andb_false_r in O. discriminate O.
Qed.

(** ** C61, the rounding: for every power in the range the table holds a number
    of 128 bits.  It is 5^q, scaled by a power of two, exactly for q from 0 to
    55, rounded up for q from -27 to -1, and rounded down for all others. *)
Theorem table_rounding q : -342 <= q <= 308 ->
  exists T e, entry q T /\ fits q e /\ 2 ^ 127 <= T < 2 ^ 128 /\
    (0 <= q <= 55 -> Qeq (scaled q e) (inject_Z T)) /\
    (-27 <= q < 0 -> Qlt (inject_Z (T - 1)) (scaled q e) /\ Qlt (scaled q e) (inject_Z T)) /\
    (q < -27 \/ 55 < q -> Qlt (inject_Z T) (scaled q e) /\ Qlt (scaled q e) (inject_Z (T + 1))).
Proof.
  intros Hq. destruct (entry_exists q Hq) as (T & HE). exists T, (te_E q).
  destruct (entry_range q T Hq HE) as (Th & Tl & ET & E).
  pose proof (word_pair _ _ (eo_Th _ _ _ E) (eo_Tl _ _ _ E)) as W. rewrite <- ET in W.
  pose proof (te_B_pos q) as BP.
  split; [exact HE|].
  assert (X : 0 <= q <= 55 -> Qeq (scaled q (te_E q)) (inject_Z T)).
  { intros R. apply scaled_eq. rewrite ET. exact (eo_exact _ _ _ E R). }
  assert (U : -27 <= q < 0 -> Qlt (inject_Z (T - 1)) (scaled q (te_E q)) /\ Qlt (scaled q (te_E q)) (inject_Z T)).
  { intros R. destruct (eo_up _ _ _ E R) as (U & _). rewrite <- ET in U.
    split; [apply scaled_lt|apply scaled_gt]; lia. }
  assert (D : q < -27 \/ 55 < q -> Qlt (inject_Z T) (scaled q (te_E q)) /\ Qlt (scaled q (te_E q)) (inject_Z (T + 1))).
  { intros R. destruct (eo_trunc _ _ _ E R) as (D & _). rewrite <- ET in D.
    split; [apply scaled_lt|apply scaled_gt; lia].
    assert (T * te_B q <> te_A q); [|lia].
    destruct R; [apply inexact_neg; lia|apply inexact_pos; [assumption|lia]]. }
  split; [|split; [exact W|split; [exact X|split; [exact U|exact D]]]].
  assert (C : 0 <= q <= 55 \/ -27 <= q < 0 \/ (q < -27 \/ 55 < q)) by lia.
  destruct C as [C|[C|C]].
  - split; [rewrite (X C), <- Zle_Qle; lia|rewrite (X C), <- Zlt_Qlt; lia].
  - destruct (U C) as (U1 & U2). split.
    + eapply Qle_trans; [|apply Qlt_le_weak; exact U1]. rewrite <- Zle_Qle.
      destruct (eo_up _ _ _ E C) as (_ & T1 & _). pose proof (eo_Th _ _ _ E).
      change (2 ^ 127) with (2 ^ 63 * 2 ^ 64). lia.
    + eapply Qlt_le_trans; [exact U2|]. rewrite <- Zle_Qle. lia.
  - destruct (D C) as (D1 & D2). split.
    + eapply Qle_trans; [|apply Qlt_le_weak; exact D1]. rewrite <- Zle_Qle. lia.
    + eapply Qlt_le_trans; [exact D2|]. rewrite <- Zle_Qle. lia.
Qed.

(** The comment above the table says "rounded toward one": down from 5^0 on, up
    below.  That is so from 5^-27 on only. *)
Definition rounded_toward_one (q : Z) : Prop :=
  forall T e, entry q T -> fits q e ->
    if q <? 0 then Qle (scaled q e) (inject_Z T) /\ Qlt (inject_Z (T - 1)) (scaled q e)
    else Qle (inject_Z T) (scaled q e) /\ Qlt (scaled q e) (inject_Z (T + 1)).

Theorem table_rounded_toward_one_from q : -342 <= q <= 308 -> (rounded_toward_one q <-> -27 <= q).
Proof.
  intros Hq. destruct (table_rounding q Hq) as (T & e & HE & HF & HT & X & U & D).
  unfold rounded_toward_one. split.
  - intros H. specialize (H T e HE HF). destruct (Z.ltb_spec q 0) as [N|N]; [|lia].
    destruct (Z_le_gt_dec (-27) q) as [|G]; [assumption|exfalso].
    destruct (D ltac:(lia)) as (D1 & _). apply (Qlt_not_le _ _ D1). apply H.
  - intros H T' e' HE' HF'. rewrite <- (entry_unique _ _ _ HE HE'), <- (fits_unique _ _ _ HF HF').
    destruct (Z.ltb_spec q 0) as [N|N].
    + destruct (U ltac:(lia)) as (U1 & U2). split; [apply Qlt_le_weak; exact U2|exact U1].
    + destruct (Z_le_gt_dec q 55) as [L|G].
      * rewrite (X ltac:(lia)). split; [apply Qle_refl|]. rewrite <- Zlt_Qlt. lia.
      * destruct (D ltac:(lia)) as (D1 & D2). split; [apply Qlt_le_weak; exact D1|exact D2].
Qed.

Theorem table_rounded_toward_one_refuted :
  ~ (forall q, -342 <= q <= 308 -> rounded_toward_one q).
Proof.
  intros H. specialize (H (-28) ltac:(lia)). apply table_rounded_toward_one_from in H; lia.
Qed.

(** ** C61, the generator: the script ends and prints the table, word for word *)
Theorem table_generated fuel : 2100 <= Z.of_nat fuel ->
  script_words fuel 651 (-342) = Some power_of_five_128.
Proof.
  intros F. apply script_words_list; [exact table_length|].
  intros i Th Tl A B. destruct (table_lookup i Th Tl A B) as (Q & E).
  split; [exact (eo_Tl _ _ _ E)|]. exact (script_is_entry fuel _ Th Tl Q F E).
Qed.

(** ** C61, no ambiguous product: for every significand w the low 137 bits of
    the product with an entry stay 2^64 below overflow, so the error of the entry
    never reaches the bits that decide the rounding. *)
Theorem table_no_ambiguous_product q T w : -342 <= q <= 308 -> entry q T -> 0 <= w < 2 ^ 64 ->
  (w * T) mod 2 ^ 137 < 2 ^ 137 - 2 ^ 64.
Proof.
  intros Hq (h & l & H1 & H2 & _ & ->) W.
  destruct (Z.eq_dec w 0) as [->|N].
  - rewrite Z.mul_0_l, Z.mod_0_l by lia. reflexivity.
  - apply (no_ambiguous_product (Z.to_nat (q + 342)) h l w); [| |lia].
    + rewrite <- H1. f_equal. lia.
    + rewrite <- H2. f_equal. lia.
Qed.

(** The search ends, and reports no solution. *)
Theorem search_finds_nothing fuel : 2100 <= Z.of_nat fuel -> search fuel 651 (-342) = Some [].
Proof. intros F. apply (search_none fuel F); lia. Qed.

(** The method of the search is right, for any number in place of the table
    entry: looking at the convergents of T / 2^137 only, it reports a solution
    whenever there is one, and reports solutions only. *)
Theorem search_method_correct fuel T cf : 0 <= T -> continued_fraction fuel T (2 ^ 137) = Some cf ->
  let ambiguous w := 0 < w < 2 ^ 64 /\ 2 ^ 137 - 2 ^ 64 < (T * w) mod 2 ^ 137 in
  (forall w, In w (solutions T (convergents cf)) -> ambiguous w) /\
  ((exists w, ambiguous w) -> solutions T (convergents cf) <> []).
Proof.
  intros HT C. cbv zeta. split.
  - intros w H. destruct (solutions_tests T _ w H) as (A & B & I). split; [|exact A].
    assert (F : Forall (fun pq : Z * Z => 0 <= snd pq) (convergents cf)).
    { apply convergents_nonneg; [lia|lia|]. refine (cf_nonneg _ _ _ _ HT _ C). apply Z.pow_nonneg. lia. }
    apply in_map_iff in I. destruct I as ((p & q) & EQ & I). cbn [snd] in EQ. subst q.
    rewrite Forall_forall in F. specialize (F _ I). cbn [snd] in F.
    assert (w <> 0); [|lia]. intros ->. rewrite Z.mul_0_r, Z.mod_0_l in A by lia. lia.
  - intros (w & W & A).
    pose proof (Z.mod_pos_bound (T * w) (2 ^ 137) ltac:(lia)) as MB.
    pose proof (Z.div_mod (T * w) (2 ^ 137) ltac:(lia)) as DM.
    set (k := T * w / 2 ^ 137 + 1).
    destruct (search_from T k w (k * 2 ^ 137 - w * T) W eq_refl) with (fuel := fuel) (cf := cf) (s := 1)
      (p2 := 0) (q2 := 1) (p1 := 1) (q1 := 0) (numer := T) (denom := 2 ^ 137) as [G|G]; try lia.
    + exact C.
    + destruct G as (G & _). lia.
    + exact G.
Qed.

(** *** A number for which the search reports a solution *)
Example search_method_example : exists cf,
  continued_fraction 4 (2 ^ 137 - 1) (2 ^ 137) = Some cf /\ solutions (2 ^ 137 - 1) (convergents cf) = [1; 1].
Proof. exists [0; 1; 2 ^ 137 - 1]. split; vm_compute; reflexivity. Qed.

(** ** The range of the table: a 64-bit significand times 10^-343 is less than
    half the smallest double, one times 10^309 is beyond the largest, and 10^-342
    is needed. *)
Theorem table_range : forall w, 0 < w < 2 ^ 64 ->
  Qlt (Qmult (inject_Z w) (Qpower 10 (-343))) (Qpower 2 (-1075)) /\
  Qlt (Qpower 2 1024) (Qmult (inject_Z w) (Qpower 10 309)) /\
  Qlt (Qpower 2 (-1074)) (Qmult (inject_Z (2 ^ 64 - 1)) (Qpower 10 (-342))).
Proof.
  intros w W. split; [|split].
  - eapply Qlt_trans with (Qmult (inject_Z (2 ^ 64)) (Qpower 10 (-343))); [|vm_compute; reflexivity].
    apply Qmult_lt_r; [vm_compute; reflexivity|]. rewrite <- Zlt_Qlt. lia.
  - eapply Qlt_le_trans with (Qmult (inject_Z 1) (Qpower 10 309)); [vm_compute; reflexivity|].
    apply Qmult_le_r; [vm_compute; reflexivity|]. rewrite <- Zle_Qle. lia.
  - vm_compute. reflexivity.
Qed.

(** The comment's bound, 2^-1076, does not hold for the larger half of the
    significands. *)
Theorem table_range_comment_refuted :
  ~ (forall w, 0 < w < 2 ^ 64 -> Qlt (Qmult (inject_Z w) (Qpower 10 (-343))) (Qpower 2 (-1076))).
Proof. intros H. specialize (H (2 ^ 64 - 1) ltac:(lia)). vm_compute in H. discriminate H. Qed.

(** *** Concrete entries *)
Example entry_5_1 : entry 1 (5 * 2 ^ 125) /\ fits 1 125.
Proof.
  split.
  - exists (5 * 2 ^ 61), 0. repeat split; vm_compute; (reflexivity || discriminate).
  - split; vm_compute; [discriminate|reflexivity].
Qed.

Example entry_5_m1 : entry (-1) (2 ^ 130 / 5 + 1) /\ fits (-1) 130 /\ rounded_toward_one (-1).
Proof.
  split; [|split].
  - exists 14757395258967641292, 14757395258967641293. repeat split; vm_compute; (reflexivity || discriminate).
  - split; vm_compute; [discriminate|reflexivity].
  - apply table_rounded_toward_one_from; lia.
Qed.

Example entry_5_m28 : ~ rounded_toward_one (-28).
Proof. intros H. apply table_rounded_toward_one_from in H; lia. Qed.

(** ** C61, script/analysis.py: its checks hold for every power (the script tries
    1 to 17 in the first loop and 18 to 344 in the second). *)
Theorem analysis_all_good fuel q : 1 <= q -> 3 * q < Z.of_nat fuel ->
  (q <= 54 -> analysis_small fuel q = Some true) /\ analysis_large fuel q = Some true.
Proof.
  intros Hq F. destruct (raise_pow5 fuel q ltac:(lia) F) as (z & E & Z0 & L & U).
  unfold analysis_small, analysis_large. rewrite E.
  set (d := 5 ^ q) in *. assert (D0 : 0 < d) by (apply Z.pow_pos_nonneg; lia).
  assert (W : forall K t, 0 < K -> K * 2 ^ z <= t -> (t / d + 1) * K * d <= (K + 1) * t).
  { intros K t K0 T. pose proof (Z.div_mod t d ltac:(lia)) as DM. pose proof (Z.mod_pos_bound t d D0) as MB.
    set (x := t / d) in *. set (r := t mod d) in *. clearbody x r.
    replace ((x + 1) * K * d) with (K * (d * x) + K * d) by ring.
    assert (K * (d * x) <= K * t) by (apply Z.mul_le_mono_nonneg_l; lia).
    assert (K * d <= K * 2 ^ z) by (apply Z.mul_le_mono_nonneg_l; lia). lia. }
  split.
  - intros Q. f_equal. rewrite !andb_true_iff, Z.ltb_lt, !Z.leb_le.
    assert (ET : 2 ^ (127 + z) = 2 ^ 127 * 2 ^ z) by (apply Z.pow_add_r; lia).
    assert (DS : d < 2 ^ 126).
    { apply Z.le_lt_trans with (5 ^ 54); [apply Z.pow_le_mono_r; lia|reflexivity]. }
    split; [split|].
    + assert (X : 2 ^ (127 + z) / d < 2 ^ 128 - 1); [|lia].
      apply Z.div_lt_upper_bound; [exact D0|]. rewrite ET.
      assert (2 ^ z <= 2 * d - 1) by lia.
      apply Z.le_lt_trans with (2 ^ 127 * (2 * d - 1)); [apply Z.mul_le_mono_nonneg_l; lia|].
      replace (d * (2 ^ 128 - 1)) with (2 ^ 127 * (2 * d) - d) by (change (2 ^ 128) with (2 * 2 ^ 127); ring).
      lia.
    + assert (X : 2 ^ 127 <= 2 ^ (127 + z) / d); [|lia].
      apply Z.div_le_lower_bound; [exact D0|]. rewrite ET, (Z.mul_comm d). apply Z.mul_le_mono_nonneg_l; lia.
    + apply W; [lia|]. rewrite ET. lia.
  - f_equal. rewrite andb_true_iff, Z.ltb_lt, Z.leb_le.
    assert (ET : 2 ^ (64 + 2 * z) = 2 ^ (64 + z) * 2 ^ z) by (rewrite <- Z.pow_add_r by lia; f_equal; lia).
    assert (P : 0 < 2 ^ (64 + z)) by (apply Z.pow_pos_nonneg; lia).
    split.
    + assert (X : 2 ^ (64 + z) <= 2 ^ (64 + 2 * z) / d); [|lia].
      apply Z.div_le_lower_bound; [exact D0|]. rewrite ET, (Z.mul_comm d). apply Z.mul_le_mono_nonneg_l; lia.
    + apply W; [lia|]. rewrite ET. apply Z.mul_le_mono_nonneg_r; [apply Z.pow_nonneg; lia|].
      apply Z.pow_le_mono_r; lia.
Qed.
