(** Relations between several calls of the floating-point entry point. *)
From Verif Require Import Machine Config Chars Format ParseNumber DecToBin FromChars WordLemmas
  Rounding ComputeFloat SpecFloat FloatBridge Clinger Pow10 SpecGrammar SpecApi SpecRel Scan ParseSpec Special
  SlowPath ManyDigits Saturate FloatMaster FloatApi.
From Coq Require Import QArith Qabs Lqa.
Open Scope Z_scope.

(** Two texts with the same digits and exponent. *)
Lemma float_same c t ip fp e o1 u1 s1 s01 n1 r1 o2 u2 s2 s02 n2 r2 :
  good_text c u1 o1 s1 -> starts_at c o1 s1 s01 -> number (rules_of c o1) s01 n1 ip fp e r1 ->
  good_text c u2 o2 s2 -> starts_at c o2 s2 s02 -> number (rules_of c o2) s02 n2 ip fp e r2 ->
  exists b x, 0 <= b <= inf_code t /\
    from_chars_float_advanced c u1 t s1 o1 =
      Ok {| r_ptr := r1; r_ec := x; r_value := Some (with_sign (format_of t) n1 b) |} /\
    from_chars_float_advanced c u2 t s2 o2 =
      Ok {| r_ptr := r2; r_ec := x; r_value := Some (with_sign (format_of t) n2 b) |}.
Proof.
  intros G1 S1 N1 G2 S2 N2.
  destruct (float_number_clamped c u1 t o1 s1 s01 n1 ip fp e r1 (good_text_ok _ _ _ _ G1) S1 N1) as (e1 & b1 & x1 & CL1 & E1 & R1 & O1).
  destruct (float_number_clamped c u2 t o2 s2 s02 n2 ip fp e r2 (good_text_ok _ _ _ _ G2) S2 N2) as (e2 & b2 & x2 & CL2 & E2 & R2 & O2).
  pose proof (clamp_unique _ _ _ CL1 CL2). subst e2.
  pose proof (near_unique _ _ _ _ R1 R2). subst b2.
  assert (EX : x1 = x2).
  { destruct O1 as [P1 O1], O2 as [P2 O2].
    destruct (quiet_dec c t (digits_value (ip ++ fp)) (e1 - Z.of_nat (length fp))) as [Q|Q];
        [rewrite P1, P2 by exact Q|rewrite O1, O2 by exact Q]; reflexivity. }
  subst x2. exists b1, x1. split; [eapply near_range; exact R1|]. split; assumption.
Qed.

(** ** Magnitudes *)
Lemma magnitude_lt t a b : 0 <= a < b -> (magnitude (format_of t) a < magnitude (format_of t) b)%Q.
Proof.
  intros H. rewrite !magnitude_units by lia. apply Qmult_lt_r; [apply ulp0_pos|].
  rewrite <- Zlt_Qlt. apply U_lt; [apply mb_range|exact H].
Qed.

Lemma magnitude_le t a b : 0 <= a <= b -> (magnitude (format_of t) a <= magnitude (format_of t) b)%Q.
Proof.
  intros H. destruct (Z.eq_dec a b) as [->|N]; [apply Qle_refl|]. apply Qlt_le_weak, magnitude_lt. lia.
Qed.

Lemma magnitude_nonneg t b : 0 <= b -> (0 <= magnitude (format_of t) b)%Q.
Proof.
  intros H. rewrite magnitude_units by lia. apply Qmult_le_0_compat; [|apply Qlt_le_weak, ulp0_pos].
  change 0%Q with (inject_Z 0). rewrite <- Zle_Qle. rewrite <- (fp_units_sub (mant_bits t) 0).
  - apply U_le; [apply mb_range|lia].
  - pose proof (mb_range t). lia.
  - pose proof (pow2_pos (mant_bits t)). pose proof (mb_range t). lia.
Qed.

(** Closer to the larger of two means at or above their middle. *)
Lemma closer_high x l h : (l < h)%Q -> (Qabs (x - h) <= Qabs (x - l))%Q -> (l + h <= 2 * x)%Q.
Proof. intros L. do 2 apply Qabs_case; intros; lra. Qed.
Lemma closer_low x l h : (l < h)%Q -> (Qabs (x - l) <= Qabs (x - h))%Q -> (2 * x <= l + h)%Q.
Proof. intros L. do 2 apply Qabs_case; intros; lra. Qed.

Lemma nearest_of t x b : near t x b -> nearest (format_of t) x b.
Proof. intros H. apply near_spec in H. apply H. Qed.

Lemma near_mono t x y a b : (x <= y)%Q -> near t x a -> near t y b -> a <= b.
Proof.
  intros L NA NB. destruct (Qle_lt_or_eq _ _ L) as [LT|EQ].
  - destruct (Z_le_gt_dec a b) as [G|G]; [exact G|exfalso].
    destruct (nearest_of t x a NA) as (RA & HA). destruct (nearest_of t y b NB) as (RB & HB).
    pose proof (magnitude_lt t b a ltac:(lia)) as M.
    pose proof (closer_high _ _ _ M (HA b RB)) as C1. pose proof (closer_low _ _ _ M (HB a RA)) as C2. lra.
  - assert (a = b); [|lia]. apply (near_unique t y); [eapply near_comp; [exact EQ|exact NA]|exact NB].
Qed.

(** The strictly closest float is the result. *)
Lemma near_strict t x a b : near t x a -> 0 <= b <= inf_code t ->
  (forall b', 0 <= b' <= inf_code t -> b' <> b ->
     (Qabs (x - magnitude (format_of t) b) < Qabs (x - magnitude (format_of t) b'))%Q) -> a = b.
Proof.
  intros N RB S. destruct (nearest_of t x a N) as (RA & HA).
  rewrite inf_inf in RA, HA. destruct (Z.eq_dec a b) as [E|NE]; [exact E|exfalso].
  specialize (S a RA NE). specialize (HA b RB). apply (Qlt_not_le _ _ S HA).
Qed.

(** Strictly within half the distance to both neighbours. *)
Lemma strict_neighbours t x b : 0 <= b < inf_code t ->
  (2 * x < magnitude (format_of t) b + magnitude (format_of t) (b + 1))%Q ->
  (1 <= b -> (magnitude (format_of t) (b - 1) + magnitude (format_of t) b < 2 * x)%Q) ->
  forall b', 0 <= b' <= inf_code t -> b' <> b ->
     (Qabs (x - magnitude (format_of t) b) < Qabs (x - magnitude (format_of t) b'))%Q.
Proof.
  intros RB U L b' RB' NE. set (M := magnitude (format_of t)) in *.
  destruct (Z_lt_le_dec b' b) as [G|G].
  - specialize (L ltac:(lia)). pose proof (magnitude_le t b' (b - 1) ltac:(lia)) as M1. fold M in M1.
    pose proof (magnitude_lt t b' b ltac:(lia)) as M2. fold M in M2.
    clear - L M1 M2. do 2 apply Qabs_case; intros; lra.
  - pose proof (magnitude_le t (b + 1) b' ltac:(lia)) as M1. fold M in M1.
    pose proof (magnitude_lt t b b' ltac:(lia)) as M2. fold M in M2.
    clear - U M1 M2. do 2 apply Qabs_case; intros; lra.
Qed.

(** Gaps: relative to a nonzero float both neighbours are at least
    2^-(frac_bits+1) away. *)
Lemma gap_up mb b : 0 < mb -> 1 <= b -> fp_units mb b <= (fp_units mb (b + 1) - fp_units mb b) * 2 ^ (mb + 1).
Proof.
  intros Hmb Hb. destruct (U_dec mb b Hmb ltac:(lia)) as (k & m & E & C & L). rewrite E.
  rewrite U_succ, U_enc by assumption. destruct C as (Hk & Hm & Hc).
  pose proof (pow2_pos k Hk). nia.
Qed.

Lemma gap_down mb b : 0 < mb -> 1 <= b -> fp_units mb b <= (fp_units mb b - fp_units mb (b - 1)) * 2 ^ (mb + 1).
Proof.
  intros Hmb Hb. destruct (U_dec mb (b - 1) Hmb ltac:(lia)) as (k & m & E & C & L).
  pose proof (U_succ mb k m Hmb C L) as S. replace b with (b - 1 + 1) at 1 2 by lia. rewrite E.
  rewrite S, U_enc by assumption. destruct C as (Hk & Hm & Hc).
  pose proof (pow2_pos k Hk). nia.
Qed.

Lemma near_relative t x a b : near t x a -> 1 <= b < inf_code t ->
  (Qabs (x - magnitude (format_of t) b) * inject_Z (2 ^ (mant_bits t + 2)) < magnitude (format_of t) b)%Q -> a = b.
Proof.
  intros N RB H. apply (near_strict t x a b N ltac:(lia)). apply strict_neighbours; [lia| |].
  - rewrite !magnitude_units in * by lia. pose proof (ulp0_pos t) as P. pose proof (mb_range t) as Hmb.
    pose proof (gap_up (mant_bits t) b ltac:(lia) ltac:(lia)) as G.
    replace (mant_bits t + 2) with (mant_bits t + 1 + 1) in H by lia. rewrite pow2_S in H by lia.
    pose proof (pow2_pos (mant_bits t + 1) ltac:(lia)) as PT.
    revert H G PT. generalize (2 ^ (mant_bits t + 1)) (fp_units (mant_bits t) b) (fp_units (mant_bits t) (b + 1)).
    intros T A B H G PT. rewrite Zle_Qle, inject_Z_mult in G. unfold Z.sub in G. rewrite inject_Z_plus, inject_Z_opp in G.
    rewrite inject_Z_mult in H. change (inject_Z 2) with 2%Q in H.
    assert (PQ : (0 < inject_Z T)%Q) by (change 0%Q with (inject_Z 0); rewrite <- Zlt_Qlt; exact PT).
    assert (AB : (x - inject_Z A * ulp0 t <= Qabs (x - inject_Z A * ulp0 t))%Q) by apply Qle_Qabs.
    assert (G2 : (inject_Z A * ulp0 t <= ((inject_Z B + - inject_Z A) * inject_Z T) * ulp0 t)%Q) by (apply Qmult_le_compat_r; [exact G|apply Qlt_le_weak, P]).
    assert (F : (Qabs (x - inject_Z A * ulp0 t) * 2 * inject_Z T < ((inject_Z B + - inject_Z A) * ulp0 t) * inject_Z T)%Q) by lra.
    apply Qmult_lt_r in F; [|exact PQ]. lra.
  - intros _. rewrite !magnitude_units in * by lia. pose proof (ulp0_pos t) as P. pose proof (mb_range t) as Hmb.
    pose proof (gap_down (mant_bits t) b ltac:(lia) ltac:(lia)) as G.
    replace (mant_bits t + 2) with (mant_bits t + 1 + 1) in H by lia. rewrite pow2_S in H by lia.
    pose proof (pow2_pos (mant_bits t + 1) ltac:(lia)) as PT.
    revert H G PT. generalize (2 ^ (mant_bits t + 1)) (fp_units (mant_bits t) b) (fp_units (mant_bits t) (b - 1)).
    intros T A B H G PT. rewrite Zle_Qle, inject_Z_mult in G. unfold Z.sub in G. rewrite inject_Z_plus, inject_Z_opp in G.
    rewrite inject_Z_mult in H. change (inject_Z 2) with 2%Q in H.
    assert (PQ : (0 < inject_Z T)%Q) by (change 0%Q with (inject_Z 0); rewrite <- Zlt_Qlt; exact PT).
    assert (AB : (- (x - inject_Z A * ulp0 t) <= Qabs (x - inject_Z A * ulp0 t))%Q).
    { rewrite <- Qabs_opp. apply Qle_Qabs. }
    assert (G2 : (inject_Z A * ulp0 t <= ((inject_Z A + - inject_Z B) * inject_Z T) * ulp0 t)%Q) by (apply Qmult_le_compat_r; [exact G|apply Qlt_le_weak, P]).
    assert (F : (Qabs (x - inject_Z A * ulp0 t) * 2 * inject_Z T < ((inject_Z A + - inject_Z B) * ulp0 t) * inject_Z T)%Q) by lra.
    apply Qmult_lt_r in F; [|exact PQ]. lra.
Qed.

(** ** integer_times_pow10, exactly *)
Lemma pow10_u_exact c t m e : 0 <= m < 2 ^ 64 ->
  exists b, integer_times_pow10_u c t m e = Ok b /\ cf_rounds t (dec m e) b.
Proof.
  intros Hm. unfold integer_times_pow10_u.
  destruct (clinger_spec c t m e false ltac:(lia)) as [->|(b & EC & Hb)]; cbn [bind].
  - destruct (compute_float_exact c t e m Hm) as (am & -> & OK & R & _). cbn [bind].
    exists (am_code t am). rewrite (to_float_spec t false am OK), with_sign_false. split; [reflexivity|exact R].
  - rewrite EC. cbn [bind]. exists b. rewrite with_sign_false. split; [reflexivity|]. right.
    split; [eapply clinger_no_tie; [|exact EC]; lia|exact Hb].
Qed.

(** ** Text after the number *)

Definition stops (R : rules) (s : list Z) : Prop := number_ends (point R) s.

Lemma stops_digit R s : stops R s -> not_at_digit s.
Proof. unfold stops, number_ends, not_at_digit. destruct s; cbn; tauto. Qed.
Lemma stops_mark R s : stops R s -> forall s1, ~ exp_mark R s s1.
Proof. intros H s1 M. inversion M; subst; cbn in H; intuition. Qed.
Lemma stops_point R s : stops R s -> not_at (fun ch => ch = point R) s.
Proof. unfold stops, number_ends. destruct s; cbn; tauto. Qed.

Lemma run_trailing l ds rest rest' : run (l ++ rest) ds rest -> not_at_digit rest' -> run (l ++ rest') ds rest'.
Proof. intros (E & A & _) N. apply app_inv_tail in E. subst. repeat split; assumption. Qed.

Lemma suffix_inv {A} (p : list A) q rest : p ++ rest = q ++ rest -> p = q.
Proof. apply app_inv_tail. Qed.

Lemma exponent_trailing R p e rest rest' : exponent R (p ++ rest) e rest -> stops R rest' -> exponent R (p ++ rest') e rest'.
Proof.
  intros H S. pose proof (stops_digit _ _ S) as SD.
  remember (p ++ rest) as s eqn:Es. destruct H as [s s1 neg s2 ds rest EM ES (E2 & A & N) ND|s NM F|s s1 neg s2 EM ES N F].
  - assert (X2 : s2 = ds ++ rest) by exact E2. clear E2.
    assert (E1 : exists l1, s1 = l1 ++ ds ++ rest /\ forall r, not_at_digit r -> exp_sign (l1 ++ ds ++ r) neg (ds ++ r)).
    { inversion ES; subst.
      - exists [45]. split; [reflexivity|]. intros. constructor.
      - exists [43]. split; [reflexivity|]. intros. constructor.
      - exists []. split; [reflexivity|]. intros r HR. constructor.
        destruct ds as [|d ds]; [congruence|]. assumption. }
    destruct E1 as (l1 & -> & ES').
    assert (E3 : exists l0, s = l0 ++ l1 ++ ds ++ rest /\ forall r, exp_mark R (l0 ++ l1 ++ ds ++ r) (l1 ++ ds ++ r)).
    { inversion EM; subst.
      - exists [ch]. split; [reflexivity|]. intros. apply mark_e; assumption.
      - exists [ch]. split; [reflexivity|]. intros. apply mark_d; assumption.
      - exists []. split; [cbn; congruence|]. intros r.
        destruct l1 as [|x l1]; cbn [app] in *.
        + destruct ds as [|d ds]; [congruence|]. cbn [app] in *.
          match goal with H : _ :: _ = _ :: _ |- _ => injection H as <- _ end. apply mark_sign; assumption.
        + match goal with H : _ :: _ = _ :: _ |- _ => injection H as <- _ end. apply mark_sign; assumption. }
    destruct E3 as (l0 & E3 & EM'). rewrite E3 in Es.
    rewrite !app_assoc in Es. apply app_inv_tail in Es. subst p. rewrite <- !app_assoc.
    eapply exponent_some; [apply EM'|apply ES'; exact SD|split; [reflexivity|split; assumption]|exact ND].
  - assert (p = []) by (apply (app_inv_tail s); rewrite <- Es; reflexivity). subst p. cbn [app].
    apply exponent_none; [apply stops_mark; exact S|exact F].
  - assert (p = []) by (apply (app_inv_tail s); rewrite <- Es; reflexivity). subst p. cbn [app].
    apply exponent_none; [apply stops_mark; exact S|right; exact F].
Qed.

Lemma exponent_suffix R s e rest : exponent R s e rest -> exists p, s = p ++ rest.
Proof.
  intros H. destruct H as [s s1 neg s2 ds rest EM ES (E2 & A & N) ND| |]; [|exists []; reflexivity|exists []; reflexivity].
  subst s2. assert (exists l, s1 = l ++ ds ++ rest) as (l & ->).
  { inversion ES; subst; [exists [45]|exists [43]|exists []]; reflexivity. }
  inversion EM; subst; [exists (ch :: l ++ ds)|exists (ch :: l ++ ds)|exists (l ++ ds)]; cbn [app]; rewrite <- ?app_assoc; congruence.
Qed.

Lemma number_trailing R p neg ip fp e rest rest' :
  number R (p ++ rest) neg ip fp e rest -> stops R rest' -> number R (p ++ rest') neg ip fp e rest'.
Proof.
  intros (s1 & s2 & hp & s3 & SG & (RI & AI & NI) & F & MO & EX) ST.
  destruct (exponent_suffix _ _ _ _ EX) as (pe & ->).
  pose proof (exponent_trailing _ _ _ _ _ EX ST) as EX'.
  pose proof (stops_digit _ _ ST) as SD.
  (* the exponent part does not start with a digit; it may be empty *)
  assert (PE : forall x l, pe = x :: l -> digit x = false).
  { intros x l ->. inversion EX as [? ? ? ? ? ? EM|? NM|? ? ? ? EM]; subst.
    - inversion EM; subst; match goal with H : _ \/ _ |- _ => destruct H; subst; reflexivity end.
    - exfalso. assert (L : length rest = length ((x :: l) ++ rest)) by congruence. rewrite app_length in L. cbn in L. lia.
    - exfalso. assert (L : length rest = length ((x :: l) ++ rest)) by congruence. rewrite app_length in L. cbn in L. lia. }
  assert (D3 : not_at_digit (pe ++ rest')).
  { destruct pe as [|x l]; [exact SD|]. cbn. rewrite (PE x l eq_refl). discriminate. }
  assert (F' : exists pf, s2 = pf ++ pe ++ rest /\ fraction R (pf ++ pe ++ rest') hp fp (pe ++ rest') /\ not_at_digit (pf ++ pe ++ rest') /\ (pf = [] -> fp = [])).
  { inversion F as [? ? ? (E2 & A2 & N2)|]; subst.
    - exists (point R :: fp). split; [reflexivity|]. split.
      + cbn [app]. apply fraction_some. repeat split; assumption.
      + split; [exact NI|discriminate].
    - exists []. split; [reflexivity|]. split; [|split; [exact D3|reflexivity]]. cbn [app]. apply fraction_none.
      destruct pe as [|x l]; [apply stops_point; exact ST|]. assumption. }
  destruct F' as (pf & -> & F' & D2 & PF). subst s1.
  assert (S' : exists ps, p = ps ++ ip ++ pf ++ pe /\ signed R (ps ++ ip ++ pf ++ pe ++ rest') neg (ip ++ pf ++ pe ++ rest')).
  { remember (p ++ rest) as s eqn:Es. inversion SG; subst.
    - exists [45]. split; [|constructor].
      apply (app_inv_tail rest). rewrite <- !app_assoc. symmetry. assumption.
    - exists [43]. split; [|constructor; assumption].
      apply (app_inv_tail rest). rewrite <- !app_assoc. symmetry. assumption.
    - exists []. split; [apply (app_inv_tail rest); cbn [app]; rewrite <- !app_assoc; congruence|].
      constructor.
      assert (NE : ip ++ pf ++ pe <> []).
      { intros E0. apply app_eq_nil in E0. destruct E0 as (-> & E0). apply app_eq_nil in E0. destruct E0 as (-> & ->).
        rewrite (PF eq_refl) in MO.
        unfold mantissa_ok in MO. destruct (json R); [destruct MO as (MO & _)|]; apply MO; reflexivity. }
      match goal with H : not_at _ _ |- _ => revert H end.
      replace (ip ++ pf ++ pe ++ rest) with ((ip ++ pf ++ pe) ++ rest) by (rewrite <- !app_assoc; reflexivity).
      replace (ip ++ pf ++ pe ++ rest') with ((ip ++ pf ++ pe) ++ rest') by (rewrite <- !app_assoc; reflexivity).
      destruct (ip ++ pf ++ pe); [congruence|]. exact (fun h => h). }
  destruct S' as (ps & -> & S'). rewrite <- !app_assoc.
  exists (ip ++ pf ++ pe ++ rest'), (pf ++ pe ++ rest'), hp, (pe ++ rest').
  split; [exact S'|]. split; [split; [reflexivity|split; assumption]|]. split; [exact F'|]. split; [exact MO|exact EX'].
Qed.

(** ** Special values *)
Lemma same_letters_trailing w : forall p rest rest', same_letters w (p ++ rest) rest -> same_letters w (p ++ rest') rest'.
Proof.
  induction w as [|x w IH]; intros p rest rest' H.
  - inversion H; subst. assert (p = []) by (apply (app_inv_tail rest); cbn; congruence). subst. constructor.
  - remember (p ++ rest) as s eqn:Es. inversion H as [|? ? ch s' ? C H']; subst.
    destruct p as [|y p].
    + exfalso. cbn in *. destruct (same_letters_suffix _ _ _ H') as (q & ->).
      assert (L : length rest = length (ch :: q ++ rest)) by congruence. cbn in L. rewrite app_length in L. lia.
    + cbn [app] in *. match goal with H : _ :: _ = _ :: _ |- _ => injection H as -> -> end.
      constructor; [exact C|]. eapply IH; exact H'.
Qed.

Lemma special_trailing plus p neg k rest rest' : special plus (p ++ rest) neg k rest -> special_ends rest' ->
  special plus (p ++ rest') neg k rest'.
Proof.
  intros H ST.
  assert (G : forall s1 l, special_sign plus (p ++ rest) neg s1 -> s1 = l ++ rest -> l <> [] ->
    exists ps, p = ps ++ l /\ special_sign plus (p ++ rest') neg (l ++ rest')).
  { clear H. intros s1 l H -> NE. remember (p ++ rest) as s eqn:Es. inversion H; subst.
    - exists [45]. assert (p = 45 :: l) as -> by (apply (app_inv_tail rest); cbn; congruence). split; [reflexivity|]. cbn. apply ssign_minus.
    - exists [43]. assert (p = 43 :: l) as -> by (apply (app_inv_tail rest); cbn; congruence). split; [reflexivity|]. cbn. apply ssign_plus; reflexivity.
    - exists []. assert (p = l) as -> by (apply (app_inv_tail rest); cbn; congruence). split; [reflexivity|].
      constructor. destruct l as [|x l]; [congruence|]. cbn in *. assumption. }
  assert (NN : forall x w s r, same_letters (x :: w) s r -> s <> r).
  { intros x w s r HS. inversion HS as [|? ? ch s' ? C HS']; subst. destruct (same_letters_suffix _ _ _ HS') as (q & ->).
    intros E. apply (f_equal (@length Z)) in E. cbn in E. rewrite app_length in E. lia. }
  inversion H as [? ? s1 s2 ? SS SL PL|? ? s1 s2 ? SS SL SL2|? ? s1 ? SS SL NI]; subst.
  - destruct PL as [l rest0 FL|s2' NP].
    + destruct (same_letters_suffix _ _ _ SL) as (q & E). pose proof (NN _ _ _ _ SL) as NE.
      destruct (G s1 (q ++ 40 :: l ++ [41]) SS) as (ps & EP & SS').
      { rewrite E. rewrite <- app_assoc. cbn. rewrite <- app_assoc. reflexivity. }
      { destruct q; discriminate. }
      eapply special_nan; [exact SS'| |apply (payload_some l); exact FL].
      rewrite <- app_assoc. cbn [app]. rewrite <- app_assoc. cbn [app]. subst s1. eapply same_letters_trailing. exact SL.
    + destruct (same_letters_suffix _ _ _ SL) as (q & E). pose proof (NN _ _ _ _ SL) as NE.
      destruct (G s1 q SS E) as (ps & EP & SS'); [intros ->; apply NE; exact E|].
      eapply special_nan; [exact SS'|subst s1; eapply same_letters_trailing; exact SL|].
      apply payload_none. intros l r _ E2. subst rest'. cbn in ST. tauto.
  - destruct (same_letters_suffix _ _ _ SL2) as (q2 & E2). subst s2.
    destruct (same_letters_suffix _ _ _ SL) as (q & E). pose proof (NN _ _ _ _ SL) as NE.
    destruct (G s1 (q ++ q2) SS) as (ps & EP & SS'); [rewrite E, app_assoc; reflexivity| |].
    { intros EN. apply app_eq_nil in EN. destruct EN as (-> & ->). apply NE. exact E. }
    eapply special_infinity; [exact SS'| |eapply same_letters_trailing; exact SL2].
    rewrite <- app_assoc. subst s1. eapply same_letters_trailing. exact SL.
  - destruct (same_letters_suffix _ _ _ SL) as (q & E). pose proof (NN _ _ _ _ SL) as NE.
    destruct (G s1 q SS E) as (ps & EP & SS'); [intros ->; apply NE; exact E|].
    eapply special_inf; [exact SS'|subst s1; eapply same_letters_trailing; exact SL|].
    intros r HS. inversion HS as [|? ? ch ? ? C _]; subst. cbn in ST. intuition.
Qed.

(** The first characters of a number and of a special value. *)
Lemma number_head R s neg ip fp e rest : number R s neg ip fp e rest ->
  exists s1, (s = s1 \/ s = 45 :: s1 \/ s = 43 :: s1) /\
    (exists d l, digit d = true /\ (s1 = d :: l \/ s1 = point R :: d :: l)).
Proof.
  intros (s1 & s2 & hp & s3 & SG & (RI & AI & NI) & F & MO & EX). exists s1.
  split; [inversion SG; subst; auto|].
  destruct ip as [|d ip].
  - cbn [app] in RI. subst s2. inversion F as [? ds ? (E & A & _)|]; subst.
    + destruct fp as [|d fp].
      * exfalso. unfold mantissa_ok in MO. destruct (json R); [destruct MO as (MO & _)|]; apply MO; reflexivity.
      * inversion A; subst. exists d, (fp ++ s3). split; [assumption|]. right. reflexivity.
    + exfalso. unfold mantissa_ok in MO. destruct (json R); [destruct MO as (MO & _)|]; apply MO; reflexivity.
  - inversion AI; subst. exists d, (ip ++ s2). split; [assumption|]. left. reflexivity.
Qed.

Lemma special_head plus s neg k rest : special plus s neg k rest ->
  exists s1 a b cc l, (s = s1 \/ s = 45 :: s1 \/ s = 43 :: s1) /\ s1 = a :: b :: cc :: l /\
    In a [110; 78; 105; 73] /\ In b [97; 65; 110; 78] /\ In cc [110; 78; 102; 70].
Proof.
  assert (G : forall s1, special_sign plus s neg s1 -> s = s1 \/ s = 45 :: s1 \/ s = 43 :: s1).
  { intros s1 H. inversion H; subst; auto. }
  assert (L : forall x y z s1 r, same_letters [x; y; z] s1 r -> exists a b cc l, s1 = a :: b :: cc :: l /\
     (a = x \/ a = x - 32) /\ (b = y \/ b = y - 32) /\ (cc = z \/ cc = z - 32)).
  { intros x y z s1 r H. inversion H as [|? ? a ? ? A H1]; subst. inversion H1 as [|? ? b ? ? B H2]; subst.
    inversion H2 as [|? ? cc ? ? D H3]; subst. eauto 10. }
  intros H. inversion H as [? ? s1 s2 ? SS SL PL|? ? s1 s2 ? SS SL SL2|? ? s1 ? SS SL NI]; subst;
    destruct (L _ _ _ _ _ SL) as (a & b & cc & l & -> & A & B & D); exists (a :: b :: cc :: l), a, b, cc, l;
    (split; [apply G; exact SS|]); (split; [reflexivity|]); cbn; intuition lia.
Qed.

Lemma special_not_number R plus s neg k rest : special plus s neg k rest -> no_number R s.
Proof.
  intros S n ip fp e r N. destruct (special_head _ _ _ _ _ S) as (s1 & a & b & cc & l & E1 & -> & A & B & C).
  destruct (number_head _ _ _ _ _ _ _ N) as (s2 & E2 & d & l2 & D & E3).
  unfold digit in D. apply andb_true_iff in D. destruct D as [D1 D2]. apply Z.leb_le in D1, D2.
  cbn [In] in A, B, C.
  destruct E1 as [-> | [-> | ->]]; destruct E2 as [E2|[E2|E2]]; destruct E3 as [-> | ->]; injection E2; intros; subst; lia.
Qed.

(** ** Sign *)
Lemma number_negate R s ip fp e rest :
  not_at (fun ch => ch = 45 \/ ch = 43) s ->
  number R s false ip fp e rest -> number R (45 :: s) true ip fp e rest.
Proof.
  intros NS (s1 & s2 & hp & s3 & SG & H). exists s1, s2, hp, s3. split; [|exact H].
  inversion SG; subst.
  - exfalso. cbn in NS. tauto.
  - constructor.
Qed.

Lemma special_negate plus s neg k rest :
  not_at (fun ch => ch = 45 \/ ch = 43) s ->
  special plus s neg k rest -> neg = false /\ special plus (45 :: s) true k rest.
Proof.
  intros NS H.
  assert (G : forall s1, special_sign plus s neg s1 -> neg = false /\ s1 = s).
  { intros s1 SS. inversion SS; subst; [exfalso; cbn in NS; tauto|exfalso; cbn in NS; tauto|auto]. }
  inversion H as [? ? s1 s2 ? SS SL PL|? ? s1 s2 ? SS SL SL2|? ? s1 ? SS SL NI]; subst;
    destruct (G _ SS) as (-> & ->); (split; [reflexivity|]).
  - eapply special_nan; [constructor|exact SL|exact PL].
  - eapply special_infinity; [constructor|exact SL|exact SL2].
  - eapply special_inf; [constructor|exact SL|exact NI].
Qed.
