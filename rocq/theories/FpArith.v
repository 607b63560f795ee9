(** The IEEE-754 arithmetic of the model, and Clinger's fast path. *)
From Verif Require Import Machine Config Chars Format ParseNumber DecToBin FromChars WordLemmas Rounding ComputeFloat
  SpecFloat FloatBridge.
From Coq Require Import QArith Qpower Qround Lqa.
Open Scope Z_scope.

(** ** ieee_round *)

Lemma Qdiv_mult_l a b c : ~ (b == 0)%Q -> (a == c * b)%Q -> (a / b == c)%Q.
Proof. intros Hb E. rewrite E. field. exact Hb. Qed.

(** The scaled fraction used by [ieee_round]. *)
Definition sc_num (u num : Z) : Z := if u <? 0 then num * 2 ^ (- u) else num.
Definition sc_den (u den : Z) : Z := if u <? 0 then den else den * 2 ^ u.

Lemma sc_den_pos u den : 0 < den -> 0 < sc_den u den.
Proof.
  intros H. unfold sc_den. destruct (Z.ltb_spec u 0); [exact H|].
  apply Z.mul_pos_pos; [exact H|]. apply Z.pow_pos_nonneg; lia.
Qed.
Lemma sc_num_nonneg u num : 0 <= num -> 0 <= sc_num u num.
Proof.
  intros H. unfold sc_num. destruct (Z.ltb_spec u 0); [|exact H].
  apply Z.mul_nonneg_nonneg; [exact H|]. apply Z.pow_nonneg; lia.
Qed.

Lemma sc_value u num den : 0 < den ->
  ([sc_num u num]q == ([num]q / [den]q * qpow 2 (- u)) * [sc_den u den]q)%Q.
Proof.
  intros H. apply q_pos in H. unfold sc_num, sc_den.
  assert (N : ~ ([den]q == 0)%Q) by lra.
  destruct (Z.ltb_spec u 0).
  - rewrite inject_Z_mult, <- qpow_Z by lia. field. exact N.
  - rewrite inject_Z_mult, <- qpow_Z by lia.
    transitivity ([num]q / [den]q * [den]q * (qpow 2 (- u) * qpow 2 u))%Q; [|ring].
    rewrite qpow_opp by lia. field. exact N.
Qed.

Lemma floor_code_unique mb q b : 0 < mb -> 0 <= b ->
  fp_units mb b <= q < fp_units mb (b + 1) -> fp_floor_code mb q = b.
Proof.
  intros Hmb Hb [L U]. pose proof (U_nonneg mb b Hmb Hb).
  destruct (floor_code_spec mb q Hmb ltac:(lia)) as (F0 & F1 & F2).
  set (f := fp_floor_code mb q) in *.
  destruct (Z.lt_trichotomy f b) as [A|[A|A]]; [|exact A|].
  - pose proof (U_le mb (f + 1) b Hmb ltac:(lia)). lia.
  - pose proof (U_le mb (b + 1) f Hmb ltac:(lia)). lia.
Qed.

Lemma ieee_round_eq md mb me inf num den :
  ieee_round md mb me inf num den =
  let num := sc_num (me + 1 - mb) num in
  let den := sc_den (me + 1 - mb) den in
  let b := fp_floor_code mb (num / den) in
  if inf <=? b then
    match md with ToNearest | Upward => inf | Downward | TowardZero => inf - 1 end
  else
    let lo := fp_units mb b in
    let hi := fp_units mb (b + 1) in
    if num =? lo * den then b
    else match md with
    | Upward => b + 1
    | Downward | TowardZero => b
    | ToNearest =>
      match Z.compare (2 * num) ((lo + hi) * den) with
      | Lt => b
      | Gt => b + 1
      | Eq => if Z.even b then b else b + 1
      end
    end.
Proof. reflexivity. Qed.

Lemma ieee_round_nearest mb me inf num den :
  0 < mb -> 0 < inf -> 0 <= num -> 0 < den ->
  rne mb inf ([num]q / [den]q * qpow 2 (- (me + 1 - mb)))%Q (ieee_round ToNearest mb me inf num den).
Proof.
  intros Hmb Hi Hn Hd. rewrite ieee_round_eq. cbv zeta.
  set (u := me + 1 - mb). pose proof (sc_value u num den Hd) as SV.
  set (y := ([num]q / [den]q * qpow 2 (- u))%Q) in *.
  pose proof (sc_den_pos u den Hd) as PD. pose proof (sc_num_nonneg u num Hn) as PN.
  set (N := sc_num u num) in *. set (D := sc_den u den) in *. clearbody y N D. clear u num den Hn Hd.
  pose proof (Z.div_pos N D PN PD) as Q0.
  destruct (floor_code_spec mb (N / D) Hmb Q0) as (F0 & F1 & F2).
  set (b := fp_floor_code mb (N / D)) in *.
  pose proof (Z.div_mod N D ltac:(lia)) as DM. pose proof (Z.mod_pos_bound N D PD) as MB.
  assert (L : fp_units mb b * D <= N) by nia.
  assert (U : N < fp_units mb (b + 1) * D) by nia.
  pose proof PD as PDq. apply q_pos in PDq.
  assert (Lq : ([fp_units mb b]q <= y)%Q).
  { apply Qmult_le_r with [D]q; [exact PDq|]. rewrite <- SV, <- inject_Z_mult. apply -> q_le. exact L. }
  assert (Uq : (y < [fp_units mb (b + 1)]q)%Q).
  { apply Qmult_lt_r with [D]q; [exact PDq|]. rewrite <- SV, <- inject_Z_mult. apply -> q_lt. exact U. }
  destruct (rneu_pick mb y b Hmb F0 Lq (Qlt_le_weak _ _ Uq)) as [P1 P2].
  assert (CMP : forall z, (2 * N < z * D -> (2 * y < [z]q)%Q) /\ (z * D < 2 * N -> ([z]q < 2 * y)%Q) /\
                          (2 * N = z * D -> (2 * y == [z]q)%Q)).
  { intros z.
    assert (E2 : ([2 * N]q == 2 * y * [D]q)%Q) by (rewrite inject_Z_mult, SV; change [2]q with 2%Q; ring).
    repeat split; intros H.
    - apply Qmult_lt_r with [D]q; [exact PDq|]. rewrite <- E2, <- inject_Z_mult. apply -> q_lt. exact H.
    - apply Qmult_lt_r with [D]q; [exact PDq|]. rewrite <- E2, <- inject_Z_mult. apply -> q_lt. exact H.
    - apply (Qmult_inj_r _ _ [D]q); [lra|]. rewrite <- E2, <- inject_Z_mult. apply -> q_eq. exact H. }
  destruct (Z.leb_spec inf b) as [I|I].
  - destruct (rneu_exists mb y Hmb) as [c Hc].
    { apply Qle_trans with [fp_units mb b]q; [|exact Lq]. apply (proj1 (q_nonneg _)). apply U_nonneg; assumption. }
    exists c. split; [exact Hc|].
    assert (b <= c); [|lia].
    apply (rneu_mono mb [fp_units mb b]q y b c); [exact Hmb|exact Lq| |exact Hc].
    apply rneu_pick; try assumption.
    + apply Qle_refl.
    + apply -> q_le. apply U_le; lia.
    + left. change 2%Q with [2]q. rewrite <- inject_Z_mult. apply -> q_lt. unfold mid2.
      pose proof (U_lt mb b (b + 1) Hmb ltac:(lia)). lia.
  - assert (G : forall r, rneu mb y r -> r <= b + 1 -> rne mb inf y r).
    { intros r Hr Lr. exists r. split; [exact Hr|]. lia. }
    pose proof (CMP (mid2 mb b)) as (C1 & C2 & C3). unfold mid2 in C1, C2, C3 at 1.
    destruct (Z.eqb_spec N (fp_units mb b * D)) as [E|E].
    + apply G; [|lia]. apply P1. left. apply C1.
      pose proof (U_lt mb b (b + 1) Hmb ltac:(lia)). nia.
    + destruct (Z.compare_spec (2 * N) ((fp_units mb b + fp_units mb (b + 1)) * D)) as [C|C|C].
      * destruct (Z.even b) eqn:EB; (apply G; [|lia]); [apply P1|apply P2]; right; split; auto.
      * apply G; [|lia]. apply P1. left. auto.
      * apply G; [|lia]. apply P2. left. auto.
Qed.

Lemma ieee_round_exact md mb me inf num den b :
  0 < mb -> 0 <= num -> 0 < den -> 0 <= b < inf ->
  ([num]q / [den]q * qpow 2 (- (me + 1 - mb)) == [fp_units mb b]q)%Q ->
  ieee_round md mb me inf num den = b.
Proof.
  intros Hmb Hn Hd Hb E. rewrite ieee_round_eq. cbv zeta.
  set (u := me + 1 - mb) in *. pose proof (sc_value u num den Hd) as SV. rewrite E in SV.
  pose proof (sc_den_pos u den Hd) as PD.
  set (N := sc_num u num) in *. set (D := sc_den u den) in *.
  rewrite <- inject_Z_mult in SV. apply q_eq in SV.
  rewrite SV, Z.div_mul by lia.
  pose proof (U_lt mb b (b + 1) Hmb ltac:(lia)).
  rewrite (floor_code_unique mb (fp_units mb b) b) by lia.
  destruct (Z.leb_spec inf b); [lia|]. rewrite Z.eqb_refl. reflexivity.
Qed.

(** ** Representable values *)

Lemma rep_exists mb a e : 0 < mb -> 0 <= a <= 2 ^ (mb + 1) -> 0 <= e ->
  exists b, 0 <= b /\ fp_units mb b = a * 2 ^ e.
Proof.
  intros Hmb Ha He. revert a Ha. pattern e. apply natlike_ind; [| |exact He]; clear e He.
  - intros a Ha. exists (0 * 2 ^ mb + a). split; [lia|]. apply U_enc; [exact Hmb|].
    unfold canon. lia.
  - intros e He IH a Ha. rewrite <- Z.add_1_r. rewrite (pow2_S e) by exact He.
    destruct (Z_le_gt_dec (2 ^ mb) a) as [L|G].
    + exists ((e + 1) * 2 ^ mb + a). pose proof (pow2_pos mb ltac:(lia)). split; [nia|].
      rewrite U_enc; [rewrite pow2_S by exact He; lia|exact Hmb|]. unfold canon. lia.
    + destruct (IH (2 * a)) as (b & B0 & B1); [rewrite pow2_S by lia; lia|].
      exists b. split; [exact B0|]. rewrite B1. ring.
Qed.

(** Code of an exactly representable non-negative value of type [t]. *)
Definition exact_code (t : ftype) (x : Q) (b : Z) : Prop :=
  0 <= b < inf_code t /\ (units t x == [fp_units (mant_bits t) b]q)%Q.

Lemma exact_code_int t a e : 0 <= a <= 2 ^ (mant_bits t + 1) -> 0 <= e ->
  a * 2 ^ e < 2 ^ (- min_exp t) -> exists b, exact_code t [a * 2 ^ e]q b.
Proof.
  intros Ha He Hlt. pose proof (mb_range t) as Hmb.
  set (g := mant_bits t - 1 - min_exp t).
  assert (Hg : 0 <= g) by (unfold g; destruct t; cbn; lia).
  destruct (rep_exists (mant_bits t) a (e + g) ltac:(lia) Ha ltac:(lia)) as (b & B0 & B1).
  exists b. split.
  - split; [exact B0|].
    destruct (Z_lt_ge_dec b (inf_code t)) as [L|G]; [exact L|exfalso].
    pose proof (U_le (mant_bits t) (inf_code t) b ltac:(lia)) as M.
    pose proof (inf_code_pos t). specialize (M ltac:(lia)). rewrite B1 in M.
    rewrite Z.pow_add_r, Z.mul_assoc in M by lia.
    assert (I : fp_units (mant_bits t) (inf_code t) = 2 ^ (- min_exp t) * (2 * 2 ^ g)).
    { unfold g. destruct t; reflexivity. }
    rewrite I in M. pose proof (pow2_pos g Hg). 
    assert (0 <= 2 ^ (- min_exp t)) by (apply Z.pow_nonneg; lia). nia.
  - unfold units. fold g. rewrite qpow_Z, <- inject_Z_mult by exact Hg. apply -> q_eq.
    rewrite B1, Z.pow_add_r by lia. ring.
Qed.

Lemma exact_rounds t x b : exact_code t x b -> rounds t x b.
Proof.
  intros [B E]. pose proof (mb_range t) as Hmb.
  exists b. split; [|lia]. apply rneu_comp with [fp_units (mant_bits t) b]q; [symmetry; exact E|].
  apply rneu_pick; try lia.
  - apply Qle_refl.
  - apply -> q_le. apply U_le; lia.
  - left. change 2%Q with [2]q. rewrite <- inject_Z_mult. apply -> q_lt. unfold mid2.
    pose proof (U_lt (mant_bits t) b (b + 1) ltac:(lia) ltac:(lia)). lia.
Qed.

Lemma infinity_bits_eq t : infinity_bits t = inf_code t.
Proof. destruct t; reflexivity. Qed.

Lemma fp_of_u64_exact c t m b : 0 <= m -> exact_code t [m]q b -> fp_of_u64 c t m = b.
Proof.
  intros Hm [B E]. unfold fp_of_u64. rewrite infinity_bits_eq.
  apply ieee_round_exact; try lia.
  - pose proof (mb_range t); lia.
  - rewrite <- E. unfold units.
    replace (- (min_exp t + 1 - mant_bits t)) with (mant_bits t - 1 - min_exp t) by lia.
    change [1]q with 1%Q. field.
Qed.

(** Value of a finite code as a fraction. *)
Lemma u_neg t : min_exp t + 1 - mant_bits t < 0.
Proof. destruct t; cbn; lia. Qed.

Lemma fp_num_units t b : fp_num (mant_bits t) (min_exp t) b = fp_units (mant_bits t) b.
Proof. unfold fp_num. destruct (Z.ltb_spec (min_exp t + 1 - mant_bits t) 0) as [|H]; [reflexivity|]. pose proof (u_neg t). lia. Qed.
Lemma fp_den_units t : fp_den (mant_bits t) (min_exp t) = 2 ^ (- (min_exp t + 1 - mant_bits t)).
Proof. unfold fp_den. destruct (Z.ltb_spec (min_exp t + 1 - mant_bits t) 0) as [|H]; [reflexivity|]. pose proof (u_neg t). lia. Qed.

Lemma units_inv t x b : exact_code t x b ->
  ([fp_units (mant_bits t) b]q == x * [fp_den (mant_bits t) (min_exp t)]q)%Q.
Proof.
  intros [_ E]. rewrite <- E, fp_den_units. unfold units. rewrite <- qpow_Z by (pose proof (u_neg t); lia).
  replace (- (min_exp t + 1 - mant_bits t)) with (mant_bits t - 1 - min_exp t) by lia. reflexivity.
Qed.

Lemma fp_den_pos t : 0 < fp_den (mant_bits t) (min_exp t).
Proof. rewrite fp_den_units. apply pow2_pos. pose proof (u_neg t). lia. Qed.

Lemma mul_value t x y a b : exact_code t x a -> exact_code t y b ->
  ([fp_num (mant_bits t) (min_exp t) a * fp_num (mant_bits t) (min_exp t) b]q /
   [fp_den (mant_bits t) (min_exp t) * fp_den (mant_bits t) (min_exp t)]q == x * y)%Q.
Proof.
  intros HA HB. rewrite !fp_num_units, !inject_Z_mult, (units_inv _ _ _ HA), (units_inv _ _ _ HB).
  pose proof (fp_den_pos t) as P. apply q_pos in P. field. lra.
Qed.

Lemma div_value t x y a b : exact_code t x a -> exact_code t y b -> (0 < y)%Q ->
  ([fp_num (mant_bits t) (min_exp t) a]q / [fp_num (mant_bits t) (min_exp t) b]q == x / y)%Q.
Proof.
  intros HA HB Hy. rewrite !fp_num_units, (units_inv _ _ _ HA), (units_inv _ _ _ HB).
  pose proof (fp_den_pos t) as P. apply q_pos in P. field. lra.
Qed.

(** ** One operation under FLT_EVAL_METHOD *)

(** Format of the evaluation: (mb, me, inf). *)
Lemma own_nearest c t num den x : converts_back c t = false -> rmode c = ToNearest ->
  0 <= num -> 0 < den -> ([num]q / [den]q == x)%Q -> rounds t x (fp_result c t num den).
Proof.
  intros E0 R Hn Hd E.
  assert (EF : eval_format c t = (mant_bits t, min_exp t, infinity_bits t)).
  { unfold eval_format. rewrite E0. unfold converts_back in E0. destruct (eval c); (reflexivity || discriminate E0). }
  unfold fp_result. rewrite EF, E0, R, infinity_bits_eq.
  pose proof (mb_range t). pose proof (inf_code_pos t).
  eapply rne_comp; [|apply ieee_round_nearest; try assumption; lia].
  rewrite E. unfold units. replace (- (min_exp t + 1 - mant_bits t)) with (mant_bits t - 1 - min_exp t) by lia.
  reflexivity.
Qed.

Lemma eval_exact c t num den x b : 0 <= num -> 0 < den -> ([num]q / [den]q == x)%Q ->
  exact_code t x b -> 
  (exists wb, 0 <= wb < snd (eval_format c t) /\
     (x * qpow 2 (- (snd (fst (eval_format c t)) + 1 - fst (fst (eval_format c t)))) ==
      [fp_units (fst (fst (eval_format c t))) wb]q)%Q) ->
  fp_result c t num den = b.
Proof.
  intros Hn Hd E HB (wb & Hwb & Ewb). unfold fp_result.
  destruct (eval_format c t) as [[wmb wme] winf] eqn:EF. cbn [fst snd] in *.
  assert (W : 0 < wmb /\ wme + 1 - wmb < 0).
  { unfold eval_format in EF. pose proof (mb_range t). pose proof (u_neg t).
    destruct (eval c), (converts_back c t); injection EF as <- <- <-; cbn in *; lia. }
  assert (R : ieee_round (rmode c) wmb wme winf num den = wb).
  { apply ieee_round_exact; try lia. rewrite E. exact Ewb. }
  rewrite R.
  assert (EX : forall t', exact_code t' x b -> forall n d, 0 <= n -> 0 < d -> ([n]q / [d]q == x)%Q ->
     ieee_round (rmode c) (mant_bits t') (min_exp t') (infinity_bits t') n d = b).
  { intros t' [B' E'] n d Hn' Hd' V. rewrite infinity_bits_eq. apply ieee_round_exact; try lia.
    - pose proof (mb_range t'); lia.
    - rewrite V, <- E'. unfold units.
      replace (- (min_exp t' + 1 - mant_bits t')) with (mant_bits t' - 1 - min_exp t') by lia. reflexivity. }
  assert (GO : (if winf <=? wb then infinity_bits t
     else ieee_round (rmode c) (mant_bits t) (min_exp t) (infinity_bits t) (fp_num wmb wme wb) (fp_den wmb wme)) = b).
  { destruct (Z.leb_spec winf wb); [lia|].
    assert (FN : fp_num wmb wme wb = fp_units wmb wb) by (unfold fp_num; destruct (Z.ltb_spec (wme + 1 - wmb) 0); [reflexivity|lia]).
    assert (FD : fp_den wmb wme = 2 ^ (- (wme + 1 - wmb))) by (unfold fp_den; destruct (Z.ltb_spec (wme + 1 - wmb) 0); [reflexivity|lia]).
    assert (PD : 0 < fp_den wmb wme) by (rewrite FD; apply pow2_pos; lia).
    apply EX; [exact HB| |exact PD|].
    - rewrite FN. apply U_nonneg; lia.
    - rewrite FN, <- Ewb, FD. rewrite <- qpow_Z by lia. field. apply qpow_nz. lia. }
  destruct (converts_back c t) eqn:EE; [exact GO|].
  assert (EF' : eval_format c t = (mant_bits t, min_exp t, infinity_bits t)).
  { unfold eval_format. rewrite EE. unfold converts_back in EE. destruct (eval c); (reflexivity || discriminate EE). }
  rewrite EF' in EF. injection EF as <- <- <-.
  rewrite <- R. apply EX; assumption.
Qed.

(** Integer values with few significant bits are exact in every evaluation format. *)
Lemma wide_exact c t a e : 0 <= a <= 2 ^ (mant_bits t + 1) -> 0 <= e -> a * 2 ^ e < 2 ^ (- min_exp t) ->
  exists wb, 0 <= wb < snd (eval_format c t) /\
     ([a * 2 ^ e]q * qpow 2 (- (snd (fst (eval_format c t)) + 1 - fst (fst (eval_format c t)))) ==
      [fp_units (fst (fst (eval_format c t))) wb]q)%Q.
Proof.
  intros Ha He Hlt. unfold eval_format. pose proof (mb_range t) as Hmb.
  assert (GEN : forall t', 2 ^ (mant_bits t + 1) <= 2 ^ (mant_bits t' + 1) -> 2 ^ (- min_exp t) <= 2 ^ (- min_exp t') ->
    exists wb, 0 <= wb < infinity_bits t' /\
     ([a * 2 ^ e]q * qpow 2 (- (min_exp t' + 1 - mant_bits t')) == [fp_units (mant_bits t') wb]q)%Q).
  { intros t' L1 L2. destruct (exact_code_int t' a e ltac:(lia) He ltac:(lia)) as (b & B & E).
    exists b. rewrite infinity_bits_eq. split; [exact B|]. rewrite <- E. unfold units.
    replace (- (min_exp t' + 1 - mant_bits t')) with (mant_bits t' - 1 - min_exp t') by lia. reflexivity. }
  assert (OWN : eval c = Eval0 \/ eval c = Eval_other ->
    let f := if converts_back c t then (mant_bits F32, min_exp F32, infinity_bits F32)
             else (mant_bits t, min_exp t, infinity_bits t) in
    exists wb, 0 <= wb < snd f /\
     ([a * 2 ^ e]q * qpow 2 (- (snd (fst f) + 1 - fst (fst f))) == [fp_units (fst (fst f)) wb]q)%Q).
  { intros EE f. subst f. destruct (converts_back c t) eqn:CB; cbn [fst snd]; [|apply GEN; lia].
    unfold converts_back in CB.
    destruct t; try (destruct EE as [EE|EE]; rewrite EE, Bool.andb_false_r in CB; discriminate CB);
      apply GEN; apply Z.pow_le_mono_r; cbn; lia. }
  destruct (eval c); cbn [fst snd].
  - apply OWN. left; reflexivity.
  - apply GEN; apply Z.pow_le_mono_r; destruct t; cbn; lia.
  - (* x87 *)
    set (g := 63 - 1 - -16383).
    destruct (rep_exists 63 a (e + g) ltac:(lia)) as (b & B0 & B1).
    { split; [lia|]. apply Z.le_trans with (2 ^ (mant_bits t + 1)); [lia|]. apply Z.pow_le_mono_r; lia. }
    { unfold g; lia. }
    exists b. split.
    + split; [exact B0|].
      destruct (Z_lt_ge_dec b (Z.shiftl 32767 63)) as [L|G]; [exact L|exfalso].
      pose proof (U_le 63 (Z.shiftl 32767 63) b ltac:(lia) ltac:(split; [vm_compute; discriminate|lia])) as M.
      rewrite B1 in M. rewrite Z.pow_add_r, Z.mul_assoc in M by (unfold g; lia).
      assert (I : 2 ^ 1023 * 2 ^ g <= fp_units 63 (Z.shiftl 32767 63)) by (vm_compute; discriminate).
      assert (2 ^ (- min_exp t) <= 2 ^ 1023) by (apply Z.pow_le_mono_r; destruct t; cbn; lia).
      pose proof (pow2_pos g ltac:(unfold g; lia)).
      assert (a * 2 ^ e * 2 ^ g < 2 ^ 1023 * 2 ^ g); [|lia].
      apply Z.mul_lt_mono_pos_r; lia.
    + replace (- (-16383 + 1 - 63)) with g by reflexivity.
      rewrite qpow_Z, <- inject_Z_mult by (unfold g; lia). apply -> q_eq.
      rewrite B1, Z.pow_add_r by (unfold g; lia). ring.
  - apply OWN. right; reflexivity.
Qed.
