(** parse_number_string refines the grammar. *)
From Verif Require Import Machine Config Chars Format ParseNumber WordLemmas SpecGrammar SpecApi Swar Scan.
Open Scope Z_scope.

(** ** Flags *)

Lemma flag_testbit fmt k : 0 <= k -> flag fmt (2 ^ k) = Z.testbit fmt k.
Proof.
  intros Hk. unfold flag.
  assert (E : Z.land fmt (2 ^ k) = if Z.testbit fmt k then 2 ^ k else 0).
  { apply Z.bits_inj'. intros n Hn. rewrite Z.land_spec, Z.pow2_bits_eqb by exact Hk.
    destruct (Z.eqb_spec k n) as [->|N].
    - rewrite andb_true_r. destruct (Z.testbit fmt n); [rewrite Z.pow2_bits_true by lia; reflexivity|rewrite Z.bits_0; reflexivity].
    - rewrite andb_false_r. destruct (Z.testbit fmt k); [rewrite Z.pow2_bits_false by lia; reflexivity|rewrite Z.bits_0; reflexivity]. }
  rewrite E. destruct (Z.testbit fmt k); [|reflexivity].
  pose proof (Z.pow_pos_nonneg 2 k ltac:(lia) Hk). destruct (Z.eqb_spec (2 ^ k) 0); [lia|reflexivity].
Qed.

Lemma adjust_bit c fmt k : 0 <= k ->
  Z.testbit (adjust_for_feature_macros c fmt) k =
  Z.testbit fmt k || (macro_leading_plus c && (k =? 7)) || (macro_skip_ws c && (k =? 8)).
Proof.
  intros Hk. unfold adjust_for_feature_macros.
  change f_allow_leading_plus with (2 ^ 7). change f_skip_white_space with (2 ^ 8).
  destruct (macro_leading_plus c), (macro_skip_ws c); rewrite ?Z.lor_spec, ?Z.pow2_bits_eqb by lia;
    cbn [andb]; rewrite ?orb_false_r, ?(Z.eqb_sym k); reflexivity.
Qed.

Lemma flag_adjust c o :
  let fmt := adjust_for_feature_macros c (o_format o) in
  let R := rules_of c o in
  flag fmt f_allow_leading_plus = leading_plus R /\ flag fmt f_basic_json = json R /\
  flag fmt f_scientific = scientific R /\ flag fmt f_fixed = fixed R /\
  flag fmt f_basic_fortran = fortran R /\ flag fmt f_skip_white_space = skips_space c o /\
  flag fmt f_no_infnan = negb (allows_special o).
Proof.
  cbv zeta. unfold skips_space, allows_special. rewrite negb_involutive.
  cbn [rules_of leading_plus json scientific fixed fortran].
  change f_allow_leading_plus with (2 ^ 7). change f_basic_json with (2 ^ 5). change f_scientific with (2 ^ 0).
  change f_fixed with (2 ^ 2). change f_basic_fortran with (2 ^ 6). change f_skip_white_space with (2 ^ 8).
  change f_no_infnan with (2 ^ 4).
  rewrite !flag_testbit, !adjust_bit by lia. cbn [Z.eqb Pos.eqb].
  rewrite !andb_false_r, !andb_true_r, !orb_false_r. repeat split; reflexivity.
Qed.

(** ** Uniqueness of the grammar's pieces *)

Lemma signed_exists R s : exists neg s1, signed R s neg s1.
Proof.
  destruct s as [|ch s]; [exists false, []; apply signed_none; exact I|].
  destruct (Z.eq_dec ch 45) as [->|N]; [exists true, s; constructor|].
  destruct (Z.eq_dec ch 43) as [->|N2].
  - destruct (leading_plus R) eqn:P; [destruct (json R) eqn:J|].
    + exists false, (43 :: s). apply signed_none. cbn. rewrite J. intuition congruence.
    + exists false, s. apply signed_plus; assumption.
    + exists false, (43 :: s). apply signed_none. cbn. rewrite P. intuition congruence.
  - exists false, (ch :: s). apply signed_none. cbn. tauto.
Qed.

Lemma signed_unique R s n1 s1 n2 s2 : signed R s n1 s1 -> signed R s n2 s2 -> n1 = n2 /\ s1 = s2.
Proof.
  intros H1 H2. inversion H1; subst; inversion H2; subst; auto; cbn in *; exfalso; tauto.
Qed.

Lemma fraction_exists R s : exists hp fp rest, fraction R s hp fp rest.
Proof.
  destruct s as [|ch s]; [exists false, [], []; constructor; exact I|].
  destruct (Z.eq_dec ch (point R)) as [->|N].
  - destruct (run_exists s) as (ds & rest & H). exists true, ds, rest. constructor. exact H.
  - exists false, [], (ch :: s). constructor. exact N.
Qed.

Lemma fraction_unique R s h1 f1 r1 h2 f2 r2 :
  fraction R s h1 f1 r1 -> fraction R s h2 f2 r2 -> h1 = h2 /\ f1 = f2 /\ r1 = r2.
Proof.
  intros H1 H2. inversion H1; subst; inversion H2; subst; auto; cbn in *; try (exfalso; tauto).
  match goal with A : run ?s _ _, B : run ?s _ _ |- _ => destruct (run_unique _ _ _ _ _ A B); subst end. auto.
Qed.

Lemma exp_mark_unique R s a b : exp_mark R s a -> exp_mark R s b -> a = b.
Proof. intros H1 H2. inversion H1; subst; inversion H2; subst; auto; exfalso; lia. Qed.

Lemma exp_sign_exists s : exists n s1, exp_sign s n s1.
Proof.
  destruct s as [|ch s]; [exists false, []; constructor; exact I|].
  destruct (Z.eq_dec ch 45) as [->|N]; [eexists _, _; constructor|].
  destruct (Z.eq_dec ch 43) as [->|N2]; [eexists _, _; constructor|].
  exists false, (ch :: s). constructor. cbn. tauto.
Qed.
Lemma exp_sign_unique s n1 s1 n2 s2 : exp_sign s n1 s1 -> exp_sign s n2 s2 -> n1 = n2 /\ s1 = s2.
Proof. intros H1 H2. inversion H1; subst; inversion H2; subst; auto; cbn in *; exfalso; tauto. Qed.

Lemma exponent_unique R s e1 r1 e2 r2 : exponent R s e1 r1 -> exponent R s e2 r2 -> e1 = e2 /\ r1 = r2.
Proof.
  assert (ND : forall s2 ds rest, run s2 ds rest -> ds <> [] -> not_at_digit s2 -> False).
  { intros s2 ds rest (-> & A & _) N D. destruct ds as [|x ds]; [congruence|]. inversion A; subst. cbn in D. contradiction. }
  intros H1 H2. destruct H1, H2; auto; try (exfalso; firstorder; fail);
  repeat match goal with
  | A : exp_mark R ?s ?a, B : exp_mark R ?s ?b |- _ =>
      assert (a = b) by (eapply exp_mark_unique; eassumption); subst a; clear A
  | A : exp_sign ?s ?a ?x, B : exp_sign ?s ?b ?y |- _ =>
      let E1 := fresh in let E2 := fresh in
      destruct (exp_sign_unique _ _ _ _ _ A B) as [E1 E2]; try subst a; try subst b; try subst x; clear A
  | A : run ?s ?a ?x, B : run ?s ?b ?y |- _ =>
      destruct (run_unique _ _ _ _ _ A B); subst; clear A
  end; auto; exfalso; eauto.
Qed.

Lemma number_unique R s n1 i1 f1 e1 r1 n2 i2 f2 e2 r2 :
  number R s n1 i1 f1 e1 r1 -> number R s n2 i2 f2 e2 r2 ->
  n1 = n2 /\ i1 = i2 /\ f1 = f2 /\ e1 = e2 /\ r1 = r2.
Proof.
  intros (a1 & a2 & h & a3 & A1 & A2 & A3 & A4 & A5) (b1 & b2 & h' & b3 & B1 & B2 & B3 & B4 & B5).
  destruct (signed_unique _ _ _ _ _ _ A1 B1); subst.
  destruct (run_unique _ _ _ _ _ A2 B2); subst.
  destruct (fraction_unique _ _ _ _ _ _ _ _ A3 B3) as (? & ? & ?); subst.
  destruct (exponent_unique _ _ _ _ _ _ A5 B5); subst. auto.
Qed.

(** ** Exponent *)

(** Reading of a decimal numeral is stopped once 2^28 is reached. *)
Definition cut (n n' : Z) : Prop :=
  exists k, 0 <= k /\ n' = n / 10 ^ k /\ (k = 0 \/ 2 ^ 28 <= n') /\ n' / 10 < 2 ^ 28.

Lemma cut_unique n a b : 0 <= n -> cut n a -> cut n b -> a = b.
Proof.
  intros Hn (k & K0 & -> & K1 & K2) (l & L0 & -> & L1 & L2).
  assert (G : forall i j, 0 <= i -> i < j -> (j = 0 \/ 2 ^ 28 <= n / 10 ^ j) -> n / 10 ^ i / 10 < 2 ^ 28 -> False).
  { intros i j I0 IJ [->|B] A; [lia|].
    assert (E : n / 10 ^ j = n / 10 ^ i / 10 / 10 ^ (j - i - 1)).
    { pose proof (Z.pow_pos_nonneg 10 i ltac:(lia) ltac:(lia)). pose proof (Z.pow_pos_nonneg 10 (j - i - 1) ltac:(lia) ltac:(lia)).
      rewrite Z.div_div, Z.div_div by lia. f_equal. rewrite <- ?Z.mul_assoc. rewrite <- (Z.pow_succ_r 10 (j - i - 1)) by lia.
      rewrite <- Z.pow_add_r by lia. f_equal. lia. }
    rewrite E in B. clear E.
    assert (X0 : 0 <= n / 10 ^ i / 10). { apply Z.div_pos; [|lia]. apply Z.div_pos; [lia|]. apply Z.pow_pos_nonneg; lia. }
    pose proof (Z.pow_pos_nonneg 10 (j - i - 1) ltac:(lia) ltac:(lia)) as P.
    revert A B X0 P. generalize (n / 10 ^ i / 10) (10 ^ (j - i - 1)). clear. intros X p A B X0 P.
    pose proof (Z.div_le_upper_bound X p X P ltac:(nia)). lia. }
  destruct (Z.lt_trichotomy k l) as [H|[->|H]]; [exfalso; eapply G; [| |exact L1|exact K2]; lia|reflexivity|].
  exfalso; eapply G; [| |exact K1|exact L2]; lia.
Qed.

(** The exponent the code works with: exact, or at least 2^28 in magnitude
    and not beyond the exact one; and which one. *)
Definition clamp (e e' : Z) : Prop :=
  (e' = e \/ 2 ^ 28 <= e' <= e \/ e <= e' <= - 2 ^ 28) /\ - 2 ^ 32 < e' < 2 ^ 32 /\ cut (Z.abs e) (Z.abs e').

Lemma clamp_unique e a b : clamp e a -> clamp e b -> a = b.
Proof. intros (A1 & _ & A2) (B1 & _ & B2). pose proof (cut_unique _ _ _ (Z.abs_nonneg e) A2 B2). lia. Qed.

Lemma cut_0 : cut 0 0.
Proof. exists 0. repeat split; try lia. Qed.

Lemma exp_digit_loop_spec u : forall ds s rest e,
  Forall (okc u) s -> run s ds rest -> 0 <= e < 2 ^ 32 -> e / 10 < 2 ^ 28 ->
  exists e', exp_digit_loop u s e = Ok (rest, e') /\ 0 <= e' < 2 ^ 32 /\
    (e' = e * 10 ^ Z.of_nat (length ds) + digits_value ds \/
     2 ^ 28 <= e' <= e * 10 ^ Z.of_nat (length ds) + digits_value ds) /\
    (2 ^ 28 <= e -> e' = e) /\ cut (e * 10 ^ Z.of_nat (length ds) + digits_value ds) e'.
Proof.
  induction ds as [|x ds IH]; intros s rest e OK R He H10.
  - exists e. destruct R as (E & _ & N). cbn [app] in E. subst s. split.
    + destruct rest as [|ch rest]; [reflexivity|]. cbn [exp_digit_loop].
      inversion OK; subst. rewrite is_integer_spec by assumption. cbn [bind].
      rewrite (head_notdigit _ _ N). reflexivity.
    + split; [exact He|]. rewrite digits_value_nil. cbn [length]. change (10 ^ Z.of_nat 0) with 1.
      split; [left; lia|]. split; [reflexivity|]. exists 0. rewrite Z.div_1_r. repeat split; try lia.
  - destruct R as (E & A & N). cbn [app] in E. subst s. inversion OK; subst. inversion A as [|? ? HX HD]; subst.
    cbn [exp_digit_loop]. rewrite is_integer_spec by assumption. cbn [bind].
    rewrite HX, (minus_zero_digit u x HX). apply digit_true in HX. cbn [bind].
    rewrite digits_value_cons. cbn [length]. rewrite Nat2Z.inj_succ, Z.pow_succ_r by lia.
    pose proof (digits_value_range ds HD) as VR.
    set (T := 10 ^ Z.of_nat (length ds)) in *.
    assert (HT : 1 <= T) by (unfold T; pose proof (Z.pow_pos_nonneg 10 (Z.of_nat (length ds))); lia).
    destruct (Z.ltb_spec e 268435456) as [L|L].
    + rewrite chk64_Ok by lia. cbn [bind]. rewrite u8_small, chk64_Ok by lia. cbn [bind].
      destruct (IH (ds ++ rest) rest (10 * e + (x - 48))) as (e' & -> & RG & S & S2 & S3); [assumption|repeat split; assumption|lia| |].
      { replace ((10 * e + (x - 48)) / 10) with e; [exact L|]. apply Z.div_unique with (x - 48); lia. }
      exists e'. split; [reflexivity|]. split; [exact RG|]. fold T in S, S3.
      replace ((10 * e + (x - 48)) * T + digits_value ds) with (e * (10 * T) + ((x - 48) * T + digits_value ds)) in S, S3 by ring.
      split; [exact S|]. split; [|exact S3]. intros G. change (2 ^ 28) with 268435456 in G. lia.
    + cbn [bind].
      destruct (IH (ds ++ rest) rest e) as (e' & -> & RG & S & S2 & S3); [assumption|repeat split; assumption|lia|exact H10|].
      change 268435456 with (2 ^ 28) in L. rewrite (S2 L) in *. clear S S3.
      exists e. split; [reflexivity|]. split; [exact RG|].
      split; [right; split; [exact L|nia]|]. split; [reflexivity|].
      exists (Z.of_nat (S (length ds))). split; [lia|].
      split; [|split; [right; exact L|exact H10]].
      rewrite Nat2Z.inj_succ, Z.pow_succ_r by lia. fold T.
      apply Z.div_unique with ((x - 48) * T + digits_value ds); [left; nia|ring].
Qed.

Lemma at_digit_spec u s : Forall (okc u) s ->
  at_digit u s = Ok (match s with [] => false | ch :: _ => digit ch end).
Proof. intros H. destruct s; [reflexivity|]. inversion H; subst. apply is_integer_spec. assumption. Qed.

Lemma at_digit_run s ds rest : run s ds rest ->
  match s with [] => false | ch :: _ => digit ch end = match ds with [] => false | _ => true end.
Proof.
  intros (E & A & N). destruct ds as [|x ds].
  - cbn in E. subst s. destruct rest as [|y r]; [reflexivity|]. apply (head_notdigit _ _ N).
  - subst s. cbn. inversion A; subst. assumption.
Qed.

(** Whether an exponent is introduced, as the code tests it. *)
Lemma exp_mark_code R s :
  let b := (scientific R && (at_char 101 s || at_char 69 s))
     || (fortran R && (at_char 43 s || at_char 45 s || at_char 100 s || at_char 68 s)) in
  (b = true -> exp_mark R s (if at_char 101 s || at_char 69 s || at_char 100 s || at_char 68 s then tl s else s)) /\
  (b = false -> forall s1, ~ exp_mark R s s1).
Proof.
  cbv zeta. destruct s as [|ch s]; cbn [at_char tl].
  - cbn [orb]. rewrite !andb_false_r. split; [discriminate|]. intros _ s1 H. inversion H.
  - destruct (Z.eqb_spec ch 101); [|destruct (Z.eqb_spec ch 69); [|destruct (Z.eqb_spec ch 43); [|destruct (Z.eqb_spec ch 45);
      [|destruct (Z.eqb_spec ch 100); [|destruct (Z.eqb_spec ch 68)]]]]]; subst; cbn [Z.eqb Pos.eqb orb];
      rewrite ?andb_true_r, ?andb_false_r, ?orb_false_r, ?orb_false_l;
      (split; [intros B; try discriminate B|intros B s1 H; inversion H; subst; try congruence; try lia]);
      try (apply mark_e; [assumption|tauto]); try (apply mark_d; [assumption|tauto]); try (apply mark_sign; [assumption|tauto]).
Qed.

Lemma exp_sign_code s :
  exp_sign s (at_char 45 s) (if at_char 45 s then tl s else if at_char 43 s then tl s else s).
Proof.
  destruct s as [|ch s]; cbn [at_char tl]; [constructor; exact I|].
  destruct (Z.eqb_spec ch 45) as [->|N1]; [constructor|].
  destruct (Z.eqb_spec ch 43) as [->|N2]; [constructor|]. constructor. cbn. tauto.
Qed.

Lemma Forall_tl {A} (P : A -> Prop) l : Forall P l -> Forall P (tl l).
Proof. intros H. destruct H; [constructor|assumption]. Qed.

Lemma parse_exponent_spec c u o s x :
  let R := rules_of c o in
  Forall (okc u) s -> - 2 ^ 60 <= x <= 2 ^ 60 ->
  (exists e e' rest, parse_exponent u (adjust_for_feature_macros c (o_format o)) s x = Ok (inr (rest, e', x + e')) /\
      exponent R s e rest /\ clamp e e') \/
  (exists err, parse_exponent u (adjust_for_feature_macros c (o_format o)) s x = Ok (inl err) /\
      pn_valid err = false /\ forall e rest, ~ exponent R s e rest).
Proof.
  intros R OK HX. unfold parse_exponent.
  destruct (flag_adjust c o) as (_ & _ & FS & FF & FO & _). fold R in FS, FF, FO.
  rewrite FS, FF, FO.
  destruct (exp_mark_code R s) as [EM1 EM2].
  destruct ((scientific R && (at_char 101 s || at_char 69 s))
     || (fortran R && (at_char 43 s || at_char 45 s || at_char 100 s || at_char 68 s))).
  - specialize (EM1 eq_refl). clear EM2.
    set (s1 := if at_char 101 s || at_char 69 s || at_char 100 s || at_char 68 s then tl s else s) in *.
    assert (OK1 : Forall (okc u) s1).
    { unfold s1. destruct (at_char 101 s || at_char 69 s || at_char 100 s || at_char 68 s); [apply Forall_tl|]; assumption. }
    clearbody s1. pose proof (exp_sign_code s1) as ES.
    set (s2 := if at_char 45 s1 then tl s1 else if at_char 43 s1 then tl s1 else s1) in *.
    assert (OK2 : Forall (okc u) s2).
    { unfold s2. destruct (at_char 45 s1); [|destruct (at_char 43 s1)]; try apply Forall_tl; assumption. }
    clearbody s2. set (neg := at_char 45 s1) in *. clearbody neg.
    rewrite at_digit_spec by exact OK2. cbn [bind].
    destruct (run_exists s2) as (ds & rest & RN). rewrite (at_digit_run _ _ _ RN).
    destruct ds as [|d ds]; cbn [negb].
    + assert (ND : not_at_digit s2). { destruct RN as (E & _ & N). cbn in E. subst s2. exact N. }
      destruct (fixed R) eqn:FX; cbn [negb].
      * left. exists 0, 0, s. rewrite Z.add_0_r. split; [reflexivity|]. split; [eapply exponent_dangling; eassumption|].
        split; [left; reflexivity|]. split; [lia|exact cut_0].
      * right. eexists. split; [reflexivity|]. split; [reflexivity|].
        intros e r H. inversion H; subst.
        -- match goal with A : exp_mark R s ?a |- _ => assert (a = s1) by (eapply exp_mark_unique; eassumption); subst a end.
           match goal with A : exp_sign s1 ?n ?a |- _ => destruct (exp_sign_unique _ _ _ _ _ ES A); subst a end.
           match goal with A : run s2 _ _, B : _ <> [] |- _ => destruct (run_unique _ _ _ _ _ RN A); subst; congruence end.
        -- exfalso. match goal with A : forall _, ~ exp_mark _ _ _ |- _ => exact (A _ EM1) end.
        -- congruence.
    + destruct (exp_digit_loop_spec u (d :: ds) s2 rest 0 OK2 RN ltac:(lia) ltac:(reflexivity)) as (e' & -> & ER & EV & _ & EC). cbn [bind].
      rewrite Z.mul_0_l, Z.add_0_l in EV, EC.
      assert (EN : (if neg then chk 64 (- e') else Ok e') = Ok (if neg then - e' else e')).
      { destruct neg; [apply chk64_Ok; lia|reflexivity]. }
      rewrite EN. cbn [bind]. rewrite chk64_Ok by (destruct neg; lia). cbn [bind].
      left. exists (if neg then - digits_value (d :: ds) else digits_value (d :: ds)), (if neg then - e' else e'), rest.
      split; [reflexivity|]. split; [eapply exponent_some; try eassumption; discriminate|].
      assert (0 <= digits_value (d :: ds)) by (apply digits_value_range; apply RN).
      unfold clamp. destruct neg; (split; [lia|]); (split; [lia|]); rewrite ?Z.abs_opp, !Z.abs_eq by lia; exact EC.
  - specialize (EM2 eq_refl). clear EM1.
    destruct (scientific R) eqn:S; cbn [andb]; [destruct (fixed R) eqn:FX; cbn [negb]|].
    + left. exists 0, 0, s. rewrite Z.add_0_r. split; [reflexivity|]. split; [apply exponent_none; auto|]. split; [lia|]. split; [lia|exact cut_0].
    + right. eexists. split; [reflexivity|]. split; [reflexivity|].
      intros e r H. inversion H; subst; try (exfalso; eapply EM2; eassumption). intuition congruence.
    + left. exists 0, 0, s. rewrite Z.add_0_r. split; [reflexivity|]. split; [apply exponent_none; auto|]. split; [lia|]. split; [lia|exact cut_0].
Qed.

(** ** More than 19 digits *)

Lemma skip_gen dp : forall s dc, - 2 ^ 60 + Z.of_nat (length s) <= dc <= 2 ^ 60 ->
  exists dc', skip_leading dp s dc = Ok dc' /\ dc' <= dc.
Proof.
  induction s as [|ch s IH]; intros dc H; cbn [skip_leading]; [exists dc; split; [reflexivity|lia]|].
  cbn [length] in H.
  destruct ((ch =? 48) || (ch =? dp)); [|exists dc; split; [reflexivity|lia]].
  destruct (ch =? 48).
  - rewrite chk64_Ok by lia. cbn [bind]. destruct (IH (dc - 1) ltac:(lia)) as (d & -> & L). exists d. split; [reflexivity|lia].
  - cbn [bind]. destruct (IH dc ltac:(lia)) as (d & -> & L). exists d. split; [reflexivity|lia].
Qed.

Lemma skip_zeros dp s : forall k dc, - 2 ^ 60 + Z.of_nat k <= dc <= 2 ^ 60 ->
  skip_leading dp (repeat 48 k ++ s) dc = skip_leading dp s (dc - Z.of_nat k).
Proof.
  induction k as [|k IH]; intros dc H; [cbn [repeat app]; f_equal; lia|].
  cbn [repeat app skip_leading]. cbn [Z.eqb Pos.eqb orb]. rewrite chk64_Ok by lia. cbn [bind].
  rewrite IH by lia. f_equal. lia.
Qed.

Lemma skip_stop dp d s dc : d <> 48 -> d <> dp -> skip_leading dp (d :: s) dc = Ok dc.
Proof.
  intros H1 H2. cbn [skip_leading]. apply Z.eqb_neq in H1. apply Z.eqb_neq in H2. rewrite H1, H2. reflexivity.
Qed.

Lemma skip_point dp s dc : dp <> 48 -> skip_leading dp (dp :: s) dc = skip_leading dp s dc.
Proof.
  intros H. cbn [skip_leading]. rewrite Z.eqb_refl, orb_true_r. apply Z.eqb_neq in H. rewrite H. reflexivity.
Qed.

Lemma leading_zeros l : all_digits l ->
  exists k, l = repeat 48 k \/ exists d r, l = repeat 48 k ++ d :: r /\ 49 <= d <= 57 /\ all_digits r.
Proof.
  intros H. induction H as [|x l Hx Hl IH]; [exists 0%nat; left; reflexivity|].
  apply digit_true in Hx. destruct (Z.eq_dec x 48) as [->|N].
  - destruct IH as (k & [->|(d & r & -> & D)]); exists (S k); [left; reflexivity|right].
    exists d, r. split; [reflexivity|exact D].
  - exists 0%nat. right. exists x, l. split; [reflexivity|]. split; [lia|exact Hl].
Qed.

Lemma zeros_value k l : digits_value (repeat 48 k ++ l) = digits_value l.
Proof.
  induction k as [|k IH]; [reflexivity|]. cbn [repeat app]. rewrite digits_value_cons, IH. lia.
Qed.

Lemma head_value d r : 49 <= d <= 57 -> all_digits r ->
  10 ^ Z.of_nat (length r) <= digits_value (d :: r) < 10 ^ Z.of_nat (S (length r)).
Proof.
  intros D H. rewrite digits_value_cons, Nat2Z.inj_succ, Z.pow_succ_r by lia.
  pose proof (digits_value_range r H). nia.
Qed.

Ltac len := repeat (first [rewrite app_length in * | rewrite repeat_length in * | progress cbn [length] in *]); lia.

(** What the count of digits tells, with [n] the length of the text. *)
Lemma skip_leading_spec dp ip fp s :
  digit dp = false -> all_digits ip -> all_digits fp ->
  Z.of_nat (length (ip ++ s)) <= 2 ^ 59 ->
  (exists r, s = dp :: fp ++ r) \/ fp = [] ->
  exists dc, skip_leading dp (ip ++ s) (Z.of_nat (length (ip ++ fp))) = Ok dc /\
    (dc <= 19 -> digits_value (ip ++ fp) < 10 ^ 19) /\
    (19 < dc -> 10 ^ 19 <= digits_value (ip ++ fp)).
Proof.
  intros DP AI AF LEN CASES. apply digit_false in DP.
  assert (BIG : forall d r, 49 <= d <= 57 -> all_digits r -> forall n, n = Z.of_nat (length (d :: r)) ->
    (n <= 19 -> digits_value (d :: r) < 10 ^ 19) /\ (19 < n -> 10 ^ 19 <= digits_value (d :: r))).
  { intros d r D A n ->. pose proof (head_value d r D A) as V. cbn [length]. split; intros L.
    - eapply Z.lt_le_trans; [apply V|]. apply Z.pow_le_mono_r; lia.
    - eapply Z.le_trans; [|apply V]. apply Z.pow_le_mono_r; lia. }
  destruct (leading_zeros ip AI) as (k & [->|(d & r & -> & D & A)]).
  - destruct CASES as [(r & ->)| ->].
    + destruct (leading_zeros fp AF) as (k2 & [->|(d & r2 & -> & D & A)]).
      * rewrite skip_zeros by len.
        rewrite skip_point by lia.
        rewrite skip_zeros by len.
        destruct (skip_gen dp r (Z.of_nat (length (repeat 48 k ++ repeat 48 k2)) - Z.of_nat k - Z.of_nat k2)) as (dc & -> & L).
        { len. }
        rewrite !app_length, !repeat_length in L.
        exists dc. split; [reflexivity|]. rewrite zeros_value. rewrite <- (app_nil_r (repeat 48 k2)), zeros_value, digits_value_nil.
        split; lia.
      * rewrite skip_zeros by len.
        rewrite skip_point by lia. rewrite <- app_assoc. cbn [app].
        rewrite skip_zeros by len.
        rewrite skip_stop by lia. eexists. split; [reflexivity|]. rewrite !zeros_value. apply BIG; try assumption.
        rewrite !app_length, !repeat_length. lia.
    + rewrite app_nil_r in *.
      rewrite skip_zeros by len.
      destruct (skip_gen dp s (Z.of_nat (length (repeat 48 k)) - Z.of_nat k)) as (dc & -> & L).
      { len. }
      rewrite !repeat_length in L.
      exists dc. split; [reflexivity|]. rewrite <- (app_nil_r (repeat 48 k)), zeros_value, digits_value_nil.
      split; lia.
  - rewrite <- !app_assoc in *. cbn [app] in *.
    assert (LF : (length fp <= length s)%nat).
    { destruct CASES as [(r2 & ->)| ->]; cbn [length]; rewrite ?app_length; lia. }
    rewrite skip_zeros by len.
    rewrite skip_stop by lia. eexists. split; [reflexivity|]. rewrite zeros_value. apply BIG; try assumption.
    + apply Forall_app. split; assumption.
    + rewrite !app_length, !repeat_length. lia.
Qed.

Lemma nineteen_loop_spec u : forall l i, all_digits l -> 0 <= i < 10 ^ 19 ->
  exists k, (k <= length l)%nat /\
    nineteen_loop u l i = Ok (skipn k l, i * 10 ^ Z.of_nat k + digits_value (firstn k l)) /\
    0 <= i * 10 ^ Z.of_nat k + digits_value (firstn k l) < 10 ^ 19 /\
    (10 ^ 18 <= i * 10 ^ Z.of_nat k + digits_value (firstn k l) \/ k = length l).
Proof.
  induction l as [|x l IH]; intros i A Hi.
  - exists 0%nat. cbn [nineteen_loop skipn firstn length]. rewrite digits_value_nil. change (10 ^ Z.of_nat 0) with 1.
    rewrite Z.mul_1_r, Z.add_0_r. repeat split; try lia.
  - inversion A as [|? ? HX HL]; subst. cbn [nineteen_loop].
    destruct (Z.ltb_spec i 1000000000000000000) as [L|L].
    + rewrite minus_zero_digit by exact HX. apply digit_true in HX. cbn [bind].
      change (10 ^ 19) with 10000000000000000000 in *.
      rewrite (u64_small (i * 10)), (u64_small (x - 48)), u64_small by lia.
      destruct (IH (i * 10 + (x - 48)) HL ltac:(lia)) as (k & K & E & RG & D).
      exists (S k). cbn [skipn firstn length]. rewrite digits_value_cons, firstn_length, Nat.min_l by exact K.
      rewrite Nat2Z.inj_succ, Z.pow_succ_r by lia.
      replace (i * (10 * 10 ^ Z.of_nat k) + ((x - 48) * 10 ^ Z.of_nat k + digits_value (firstn k l)))
        with ((i * 10 + (x - 48)) * 10 ^ Z.of_nat k + digits_value (firstn k l)) by ring.
      split; [lia|]. split; [exact E|]. split; [exact RG|]. destruct D; [left; assumption|right; lia].
    + exists 0%nat. cbn [skipn firstn]. rewrite digits_value_nil. change (10 ^ Z.of_nat 0) with 1.
      rewrite Z.mul_1_r, Z.add_0_r. split; [lia|]. split; [reflexivity|]. split; [lia|]. left. exact L.
Qed.

Lemma recompute_spec u ip fp fo e' :
  all_digits ip -> all_digits fp -> span_list fo = fp ->
  Z.of_nat (length (ip ++ fp)) <= 2 ^ 59 -> - 2 ^ 32 < e' < 2 ^ 32 ->
  10 ^ 19 <= digits_value (ip ++ fp) ->
  exists w k r, recompute u (Some ip) fo e' = Ok (w, e' - Z.of_nat (length fp) + k) /\
    10 ^ 18 <= w < 10 ^ 19 /\ 1 <= k <= Z.of_nat (length (ip ++ fp)) /\ 0 <= r < 10 ^ k /\
    digits_value (ip ++ fp) = w * 10 ^ k + r.
Proof.
  intros AI AF FO LEN HE BIG. unfold recompute. cbn [span_list]. rewrite FO.
  assert (FIN : forall n, (n <= length (ip ++ fp))%nat -> digits_value (firstn n (ip ++ fp)) < 10 ^ 19 ->
    (10 ^ 18 <= digits_value (firstn n (ip ++ fp)) \/ n = length (ip ++ fp)) ->
    let k := Z.of_nat (length (ip ++ fp)) - Z.of_nat n in
    10 ^ 18 <= digits_value (firstn n (ip ++ fp)) < 10 ^ 19 /\ 1 <= k <= Z.of_nat (length (ip ++ fp)) /\
    0 <= digits_value (skipn n (ip ++ fp)) < 10 ^ k /\
    digits_value (ip ++ fp) = digits_value (firstn n (ip ++ fp)) * 10 ^ k + digits_value (skipn n (ip ++ fp))).
  { intros n N U C. cbv zeta. assert (A : all_digits (ip ++ fp)) by (apply Forall_app; auto).
    assert (L : length (skipn n (ip ++ fp)) = (length (ip ++ fp) - n)%nat) by (rewrite skipn_length; reflexivity).
    pose proof (Forall_skipn _ n _ A) as AS. pose proof (digits_value_range _ AS) as VR. rewrite L in VR.
    pose proof (digits_value_app (firstn n (ip ++ fp)) (skipn n (ip ++ fp))) as V. rewrite firstn_skipn, L in V.
    replace (Z.of_nat (length (ip ++ fp)) - Z.of_nat n) with (Z.of_nat (length (ip ++ fp) - n)) by lia.
    assert (NE : n <> length (ip ++ fp)). { intros ->. rewrite firstn_all in U. lia. }
    destruct C as [C|C]; [|contradiction]. repeat split; try assumption; try lia. }
  destruct (nineteen_loop_spec u ip 0 AI ltac:(lia)) as (k & K & -> & RG & D). cbn [bind].
  rewrite Z.mul_0_l, Z.add_0_l in RG, D |- *.
  rewrite app_length in *.
  destruct (Z.leb_spec 1000000000000000000 (digits_value (firstn k ip))) as [L|L].
  - unfold remaining. rewrite skipn_length. rewrite chk64_Ok by lia. cbn [bind].
    assert (E : firstn k (ip ++ fp) = firstn k ip).
    { rewrite firstn_app. replace (k - length ip)%nat with 0%nat by lia. cbn [firstn]. apply app_nil_r. }
    destruct (FIN k ltac:(lia)) as (F1 & F2 & F3 & F4); [rewrite E; lia|rewrite E; left; exact L|].
    rewrite E in F1, F4.
    exists (digits_value (firstn k ip)), (Z.of_nat (length ip + length fp) - Z.of_nat k), (digits_value (skipn k (ip ++ fp))).
    split; [do 2 f_equal; lia|]. auto.
  - destruct D as [D|D]; [change (10 ^ 18) with 1000000000000000000 in D; lia|]. subst k. rewrite firstn_all in *.
    destruct (nineteen_loop_spec u fp (digits_value ip) AF RG) as (k & K2 & -> & RG2 & D2). cbn [bind].
    unfold remaining. rewrite skipn_length. rewrite chk64_Ok by lia. cbn [bind].
    assert (E : digits_value (firstn (length ip + k) (ip ++ fp)) = digits_value ip * 10 ^ Z.of_nat k + digits_value (firstn k fp)).
    { rewrite firstn_app, firstn_all2 by lia. replace (length ip + k - length ip)%nat with k by lia.
      rewrite digits_value_app, firstn_length, Nat.min_l by exact K2. reflexivity. }
    destruct (FIN (length ip + k)%nat ltac:(lia)) as (F1 & F2 & F3 & F4); [rewrite E; lia|rewrite E; destruct D2; [left; assumption|right; lia]|].
    rewrite E in F1, F4.
    exists (digits_value ip * 10 ^ Z.of_nat k + digits_value (firstn k fp)), (Z.of_nat (length ip + length fp) - Z.of_nat (length ip + k)),
      (digits_value (skipn (length ip + k) (ip ++ fp))).
    split; [do 2 f_equal; lia|]. auto.
Qed.

(** ** The whole number *)

(** What a parsed number says about the number [neg ip fp e rest]. *)
Definition parsed_ok (store neg : bool) (ip fp : list Z) (e : Z) (rest : list Z) (pns : parsed) : Prop :=
  pn_valid pns = true /\ pn_negative pns = neg /\ pn_lastmatch pns = rest /\
  (store = true -> pn_integer pns = Some ip /\ span_list (pn_fraction pns) = fp) /\
  exists e', clamp e e' /\
    ((pn_too_many_digits pns = false /\ digits_value (ip ++ fp) < 10 ^ 19 /\
      pn_mantissa pns = digits_value (ip ++ fp) /\ pn_exponent pns = e' - Z.of_nat (length fp)) \/
     (pn_too_many_digits pns = true /\ 10 ^ 19 <= digits_value (ip ++ fp) /\
      (store = true -> exists w k r,
         pn_mantissa pns = w /\ pn_exponent pns = e' - Z.of_nat (length fp) + k /\
         10 ^ 18 <= w < 10 ^ 19 /\ 1 <= k <= Z.of_nat (length (ip ++ fp)) /\ 0 <= r < 10 ^ k /\
         digits_value (ip ++ fp) = w * 10 ^ k + r))).

Definition no_number R s := forall neg ip fp e rest, ~ number R s neg ip fp e rest.

Lemma no_mantissa R s neg s1 : signed R s neg s1 ->
  match s1 with [] => True | ch :: _ => digit ch = false /\ (json R = false -> ch <> point R) end ->
  no_number R s.
Proof.
  intros S H neg' ip fp e rest (a1 & a2 & h & a3 & A1 & A2 & A3 & A4 & A5).
  destruct (signed_unique _ _ _ _ _ _ S A1); subst a1.
  assert (I : ip = [] /\ a2 = s1).
  { destruct A2 as (E & A & _). destruct ip as [|x ip]; [split; [reflexivity|symmetry; exact E]|].
    subst s1. cbn in H. inversion A; subst. destruct H as [H _]. congruence. }
  destruct I; subst ip a2. unfold mantissa_ok in A4. destruct (json R); [destruct A4; congruence|].
  cbn [app] in A4. destruct A3 as [s0 ds rs RN|s0 NA]; [|congruence].
  destruct H as [_ H]. specialize (H eq_refl). congruence.
Qed.

Lemma run_remaining s ds rest : run s ds rest -> remaining s - remaining rest = Z.of_nat (length ds).
Proof. intros H. unfold remaining. rewrite (run_length _ _ _ H). lia. Qed.

Lemma no_number_mantissa R s neg s1 ip s2 hp fp s3 :
  signed R s neg s1 -> run s1 ip s2 -> fraction R s2 hp fp s3 -> ~ mantissa_ok R ip hp fp ->
  no_number R s.
Proof.
  intros S RI F N neg' ip' fp' e rest (a1 & a2 & h & a3 & A1 & A2 & A3 & A4 & A5).
  destruct (signed_unique _ _ _ _ _ _ S A1); subst a1.
  destruct (run_unique _ _ _ _ _ RI A2); subst.
  destruct (fraction_unique _ _ _ _ _ _ _ _ F A3) as (? & ? & ?); subst. contradiction.
Qed.

Lemma no_number_exponent R s neg s1 ip s2 hp fp s3 :
  signed R s neg s1 -> run s1 ip s2 -> fraction R s2 hp fp s3 -> (forall e rest, ~ exponent R s3 e rest) ->
  no_number R s.
Proof.
  intros S RI F N neg' ip' fp' e rest (a1 & a2 & h & a3 & A1 & A2 & A3 & A4 & A5).
  destruct (signed_unique _ _ _ _ _ _ S A1); subst a1.
  destruct (run_unique _ _ _ _ _ RI A2); subst.
  destruct (fraction_unique _ _ _ _ _ _ _ _ F A3) as (? & ? & ?); subst. eapply N; eassumption.
Qed.


(** The sign part of the code. *)
Lemma sign_part c u o s :
  let R := rules_of c o in
  let fmt := adjust_for_feature_macros c (o_format o) in
  let dp := o_decimal_point o in
  let bjf := json R in
  Forall (okc u) s -> s <> [] ->
  exists first sgn, deref s = Ok first /\
    (if (first =? 45) || (flag fmt f_allow_leading_plus && negb bjf && (first =? 43)) then
       let p := tl s in
       match p with
       | [] => Ok (inl (report_parse_error p Missing_integer_or_dot_after_sign))
       | ch :: _ =>
         let* dig := is_integer u ch in
         if bjf then
           if negb dig then Ok (inl (report_parse_error p Missing_integer_after_sign))
           else Ok (inr p)
         else
           if negb dig && negb (ch =? dp)
           then Ok (inl (report_parse_error p Missing_integer_or_dot_after_sign))
           else Ok (inr p)
       end
     else Ok (inr s)) = Ok sgn /\
    match sgn with
    | inl err => pn_valid err = false /\ no_number R s
    | inr s1 => signed R s (first =? 45) s1 /\ Forall (okc u) s1 /\ (length s1 <= length s)%nat
    end.
Proof.
  cbv zeta. intros OK NE. destruct s as [|ch s]; [congruence|]. exists ch.
  destruct (flag_adjust c o) as (FP & _). cbv zeta in FP. rewrite FP. set (R := rules_of c o) in *.
  change (o_decimal_point o) with (point R). clearbody R.
  inversion OK as [|? ? OC OS]; subst. cbn [tl deref].
  destruct (Z.eqb_spec ch 45) as [->|N45]; cbn [orb].
  - assert (S : signed R (45 :: s) true s) by constructor.
    destruct s as [|c1 s].
    + eexists. split; [reflexivity|]. split; [reflexivity|]. split; [reflexivity|]. eapply no_mantissa; [exact S|exact I].
    + inversion OS; subst. rewrite is_integer_spec by assumption. cbn [bind].
      destruct (digit c1) eqn:D.
      { destruct (json R); cbn [negb andb]; eexists; (split; [reflexivity|]); (split; [reflexivity|]); (split; [exact S|]);
          (split; [assumption|cbn [length]; lia]). }
      destruct (json R) eqn:J; cbn [negb andb].
      * eexists. split; [reflexivity|]. split; [reflexivity|]. split; [reflexivity|]. eapply no_mantissa; [exact S|].
        split; [exact D|intros ?; congruence].
      * destruct (Z.eqb_spec c1 (point R)) as [E|E]; cbn [negb].
        -- eexists; (split; [reflexivity|]); (split; [reflexivity|]); (split; [exact S|]). split; [assumption|cbn [length]; lia].
        -- eexists. split; [reflexivity|]. split; [reflexivity|]. split; [reflexivity|]. eapply no_mantissa; [exact S|].
           split; [exact D|intros ?; congruence].
  - destruct (leading_plus R && negb (json R) && (ch =? 43)) eqn:P.
    + apply andb_true_iff in P. destruct P as [P P43]. apply andb_true_iff in P. destruct P as [P PJ].
      apply Z.eqb_eq in P43. subst ch. apply negb_true_iff in PJ.
      assert (S : signed R (43 :: s) false s) by (constructor; assumption).
      rewrite PJ. destruct s as [|c1 s].
      * eexists. split; [reflexivity|]. split; [reflexivity|]. split; [reflexivity|]. eapply no_mantissa; [exact S|exact I].
      * inversion OS; subst. rewrite is_integer_spec by assumption. cbn [bind].
        destruct (digit c1) eqn:D; cbn [negb andb].
        { eexists; (split; [reflexivity|]); (split; [reflexivity|]); (split; [exact S|]). split; [assumption|cbn [length]; lia]. }
        destruct (Z.eqb_spec c1 (point R)) as [E|E]; cbn [negb].
        -- eexists; (split; [reflexivity|]); (split; [reflexivity|]); (split; [exact S|]). split; [assumption|cbn [length]; lia].
        -- eexists. split; [reflexivity|]. split; [reflexivity|]. split; [reflexivity|]. eapply no_mantissa; [exact S|].
           split; [exact D|intros ?; congruence].
    + eexists. split; [reflexivity|]. split; [reflexivity|]. split; [|split; [exact OK|lia]].
      apply signed_none. unfold not_at. intros [?|(-> & P1 & P2)]; [lia|]. rewrite P1, P2 in P. discriminate.
Qed.

Lemma at_char_head d s : at_char d s = match s with [] => false | x :: _ => x =? d end.
Proof. reflexivity. Qed.

Lemma parse_number_string_spec c u o s store :
  let R := rules_of c o in
  Forall (okc u) s -> s <> [] -> Z.of_nat (length s) <= 2 ^ 59 -> digit (o_decimal_point o) = false ->
  exists pns, parse_number_string c u (json R) s o store = Ok pns /\
   ((exists neg ip fp e rest, number R s neg ip fp e rest /\ parsed_ok store neg ip fp e rest pns) \/
    (pn_valid pns = false /\ no_number R s)).
Proof.
  intros R OK NE LEN DP. unfold parse_number_string.
  destruct (sign_part c u o s OK NE) as (first & sgn & -> & HS & SG). cbv zeta in HS. fold R in HS, SG.
  cbn [bind]. cbv zeta. fold R. rewrite HS. clear HS. cbn [bind].
  destruct sgn as [err|s1]; [destruct SG; eauto|].
  destruct SG as (SG & OK1 & LEN1). set (neg := first =? 45) in *. clearbody neg. clear first NE OK.
  destruct (run_exists s1) as (ip & s2 & RI).
  rewrite (scan_integer_spec u s1 ip s2 OK1 RI). cbn [bind].
  rewrite (run_remaining _ _ _ RI), (run_firstn _ _ _ RI).
  pose proof (proj2 (run_ok u _ _ _ RI OK1)) as OK2.
  pose proof (run_length _ _ _ RI) as LI.
  assert (AI : all_digits ip) by apply RI.
  (* JSON checks on the integer part *)
  destruct (json R && (Z.of_nat (length ip) =? 0)) eqn:J1.
  { apply andb_true_iff in J1. destruct J1 as [J J0]. apply Z.eqb_eq in J0.
    eexists. split; [reflexivity|]. right. split; [reflexivity|].
    destruct (fraction_exists R s2) as (hp & fp & s3 & F).
    eapply no_number_mantissa; try eassumption. unfold mantissa_ok. rewrite J. intros (A & _). destruct ip; [congruence|]. cbn [length] in J0; lia. }
  destruct (json R && at_char 48 s1 && (1 <? Z.of_nat (length ip))) eqn:J2.
  { apply andb_true_iff in J2. destruct J2 as [J J0]. apply andb_true_iff in J. destruct J as [J JC]. apply Z.ltb_lt in J0.
    eexists. split; [reflexivity|]. right. split; [reflexivity|].
    destruct (fraction_exists R s2) as (hp & fp & s3 & F).
    eapply no_number_mantissa; try eassumption. unfold mantissa_ok. rewrite J. intros (_ & A & _).
    destruct ip as [|x ip]; [cbn [length] in J0; lia|]. destruct RI as (E & _). rewrite E in JC. cbn [app at_char] in JC.
    apply Z.eqb_eq in JC. subst x. rewrite (A ip eq_refl) in J0. cbn [length] in J0; lia. }
  assert (JI : json R = true -> ip <> [] /\ forall l, ip = 48 :: l -> l = []).
  { intros J. rewrite J in J1, J2. cbn [andb] in J1, J2. split; [intros ->; discriminate J1|].
    intros l ->. destruct RI as (E & _). rewrite E in J2. cbn [app at_char] in J2. cbn [Z.eqb Pos.eqb andb] in J2.
    apply Z.ltb_ge in J2. cbn [length] in J2. destruct l; [reflexivity|cbn [length] in J2; lia]. }
  clear J1 J2.
  (* fraction *)
  set (dp := o_decimal_point o) in *.
  assert (FR : exists fp s3 fo,
    (if at_char dp s2
     then
      let before := tl s2 in
      let* '(p, i) := loop_parse_if_eight_digits c u before (acc 0 ip) in
      let* '(p, i) := frac_digit_loop u p i in
      let exponent := remaining p - remaining before in
      let fspan := firstn (length before - length p) before in
      let* dc := chk 64 (Z.of_nat (length ip) - exponent) in
      Ok (p, i, exponent, dc, if store then Some fspan else None)
     else Ok (s2, acc 0 ip, 0, Z.of_nat (length ip), None)) =
    Ok (s3, acc 0 (ip ++ fp), - Z.of_nat (length fp), Z.of_nat (length (ip ++ fp)), fo) /\
    fraction R s2 (at_char dp s2) fp s3 /\ Forall (okc u) s3 /\ all_digits fp /\
    (store = true -> span_list fo = fp) /\ (length fp <= length s2)%nat /\
    ((exists r, s2 = dp :: fp ++ r) \/ fp = [])).
  { destruct s2 as [|ch s2]; cbn [at_char].
    - exists [], [], None. rewrite app_nil_r. split; [reflexivity|]. split; [constructor; exact I|].
      split; [constructor|]. split; [constructor|]. split; [reflexivity|]. split; [reflexivity|]. right; reflexivity.
    - destruct (Z.eqb_spec ch dp) as [->|N].
      + cbn [tl]. destruct (run_exists s2) as (fp & s3 & RF).
        inversion OK2; subst.
        pose proof (fraction_scan c u s2 fp s3 (acc 0 ip) ltac:(assumption) RF (acc_range _ _)) as FS. cbv zeta.
        destruct (loop_parse_if_eight_digits c u s2 (acc 0 ip)) as [[p i]|]; [|discriminate FS].
        cbn [bind] in FS |- *. rewrite FS. cbn [bind].
        replace (remaining s3 - remaining s2) with (- Z.of_nat (length fp)) by (pose proof (run_remaining _ _ _ RF); lia).
        rewrite (run_firstn _ _ _ RF). pose proof (run_length _ _ _ RF) as LF.
        cbn [length] in LI. rewrite chk64_Ok by lia. cbn [bind].
        exists fp, s3, (if store then Some fp else None). rewrite acc_app, app_length.
        split; [do 3 f_equal; lia|].
        split; [change dp with (point R); constructor; exact RF|].
        split; [apply (run_ok u _ _ _ RF); assumption|]. split; [apply RF|]. split; [intros ->; reflexivity|].
        split; [cbn [length]; lia|]. left. exists s3. f_equal. apply RF.
      + exists [], (ch :: s2), None. rewrite app_nil_r. split; [reflexivity|].
        split; [constructor; exact N|]. split; [exact OK2|]. split; [constructor|]. split; [reflexivity|]. split; [cbn [length]; lia|]. right; reflexivity. }
  destruct FR as (fp & s3 & fo & E & F & OK3 & AF & FO & LF & SH).
  cbv zeta in E. rewrite E. clear E. cbn [bind].
  assert (SIZE : Z.of_nat (length (ip ++ fp)) <= 2 ^ 59) by (rewrite app_length; lia).
  (* mantissa checks *)
  destruct (json R && at_char dp s2 && (- Z.of_nat (length fp) =? 0)) eqn:J3.
  { apply andb_true_iff in J3. destruct J3 as [J J0]. apply andb_true_iff in J. destruct J as [J JC]. apply Z.eqb_eq in J0.
    eexists. split; [reflexivity|]. right. split; [reflexivity|].
    eapply no_number_mantissa; try eassumption. unfold mantissa_ok. rewrite J. intros (_ & _ & A).
    destruct fp; [exact (A JC eq_refl)|cbn [length] in J0; lia]. }
  destruct (negb (json R) && (Z.of_nat (length (ip ++ fp)) =? 0)) eqn:J4.
  { apply andb_true_iff in J4. destruct J4 as [J J0]. apply negb_true_iff in J. apply Z.eqb_eq in J0.
    eexists. split; [reflexivity|]. right. split; [reflexivity|].
    eapply no_number_mantissa; try eassumption. unfold mantissa_ok. rewrite J. intros A.
    destruct (ip ++ fp); [congruence|cbn [length] in J0; lia]. }
  assert (MO : mantissa_ok R ip (at_char dp s2) fp).
  { unfold mantissa_ok. destruct (json R); cbn [andb negb] in J3, J4.
    - destruct (JI eq_refl) as [A B]. split; [exact A|]. split; [exact B|]. intros HP ->. rewrite HP in J3. discriminate.
    - intros E. rewrite E in J4. discriminate. }
  clear J3 J4 JI.
  (* exponent *)
  destruct (parse_exponent_spec c u o s3 (- Z.of_nat (length fp)) OK3) as [(e & e' & rest & EQ & EX & CL)|(err & EQ & EV & EX)].
  { rewrite app_length in SIZE. lia. }
  2:{ rewrite EQ. cbn [bind]. eexists. split; [reflexivity|]. right. split; [exact EV|].
      eapply no_number_exponent; eassumption. }
  rewrite EQ. clear EQ. cbn [bind]. fold R in EX.
  assert (NUM : number R s neg ip fp e rest) by (exists s1, s2, (at_char dp s2), s3; auto).
  (* count of digits *)
  assert (S1 : s1 = ip ++ s2) by apply RI.
  destruct (skip_leading_spec dp ip fp s2 DP AI AF) as (dc & SK & LO & HI); [rewrite <- S1; lia|exact SH|].
  rewrite <- S1 in SK.
  assert (SMALL : digits_value (ip ++ fp) < 10 ^ 19 -> acc 0 (ip ++ fp) = digits_value (ip ++ fp)).
  { intros L. unfold acc. rewrite Z.mul_0_l, Z.add_0_l. apply u64_small.
    pose proof (digits_value_range (ip ++ fp) ltac:(apply Forall_app; auto)). lia. }
  assert (EXACT : digits_value (ip ++ fp) < 10 ^ 19 -> forall pns,
     pns = {| pn_exponent := - Z.of_nat (length fp) + e'; pn_mantissa := acc 0 (ip ++ fp); pn_lastmatch := rest;
            pn_negative := neg; pn_valid := true; pn_too_many_digits := false;
            pn_integer := if store then Some ip else None; pn_fraction := fo; pn_error := No_error |} ->
     exists neg ip fp e rest, number R s neg ip fp e rest /\ parsed_ok store neg ip fp e rest pns).
  { intros L pns ->. exists neg, ip, fp, e, rest. split; [exact NUM|].
    unfold parsed_ok; cbn [pn_valid pn_negative pn_lastmatch pn_integer pn_fraction pn_too_many_digits pn_mantissa pn_exponent].
    split; [reflexivity|]. split; [reflexivity|]. split; [reflexivity|].
    split; [intros ->; split; [reflexivity|apply FO; reflexivity]|].
    exists e'. split; [exact CL|]. left. rewrite SMALL by exact L. repeat split; try lia. }
  destruct (Z.ltb_spec 19 (Z.of_nat (length (ip ++ fp)))) as [L|L].
  - rewrite SK. cbn [bind]. destruct (Z.ltb_spec 19 dc) as [L2|L2].
    + specialize (HI L2).
      destruct store.
      * destruct (recompute_spec u ip fp fo e' AI AF (FO eq_refl) SIZE (proj1 (proj2 CL)) HI) as (w & k & r & -> & W1 & W2 & W3 & W4).
        cbn [bind]. eexists. split; [reflexivity|]. left. exists neg, ip, fp, e, rest. split; [exact NUM|].
        unfold parsed_ok; cbn [pn_valid pn_negative pn_lastmatch pn_integer pn_fraction pn_too_many_digits pn_mantissa pn_exponent].
        split; [reflexivity|]. split; [reflexivity|]. split; [reflexivity|].
        split; [intros _; split; [reflexivity|apply FO; reflexivity]|].
        exists e'. split; [exact CL|]. right. split; [reflexivity|]. split; [exact HI|]. intros _. exists w, k, r. auto 10.
      * cbn [bind]. eexists. split; [reflexivity|]. left. exists neg, ip, fp, e, rest. split; [exact NUM|].
        unfold parsed_ok; cbn [pn_valid pn_negative pn_lastmatch pn_integer pn_fraction pn_too_many_digits pn_mantissa pn_exponent].
        split; [reflexivity|]. split; [reflexivity|]. split; [reflexivity|].
        split; [discriminate|]. exists e'. split; [exact CL|]. right. split; [reflexivity|]. split; [exact HI|]. discriminate.
    + cbn [bind]. eexists. split; [reflexivity|]. left. apply EXACT; [apply LO; exact L2|reflexivity].
  - cbn [bind]. eexists. split; [reflexivity|]. left. apply EXACT; [|reflexivity].
    eapply Z.lt_le_trans; [apply (digits_value_range (ip ++ fp)); apply Forall_app; auto|]. apply Z.pow_le_mono_r; lia.
Qed.
