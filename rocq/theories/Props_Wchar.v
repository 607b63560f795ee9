(** Property C83: the 48 smallest values of a signed 32-bit wchar_t, which C12 excludes: when
    parsing a text with such values is undefined, and what it does otherwise. *)
From Verif Require Import Machine Config Chars Format ParseNumber DecToBin DigitComp FromChars WordLemmas
  EiselTable Rounding ComputeFloat SpecFloat FloatBridge FpArith Clinger SpecGrammar SpecApi SpecRel SpecCall Scan ParseSpec Special CaseCmp
  SlowPath ManyDigits Saturate FloatMaster FloatApi Defined Props_Exact Props_Pow10.
Open Scope Z_scope.

(** The text with every one of them replaced by [z]. *)
Definition harmless_char (z ch : Z) : Z := if too_small ch then z else ch.
Definition harmless (z : Z) (s : list Z) : list Z := map (harmless_char z) s.

Definition head_small (s : list Z) : bool := match s with [] => false | ch :: _ => too_small ch end.

Notation U := Wchar_s32.

Lemma too_small_okc ch : code_unit U ch -> too_small ch = false -> okc U ch.
Proof. intros C T. split; [exact C|]. intros _. apply Z.ltb_ge in T. exact T. Qed.

Lemma too_small_range ch : code_unit U ch -> too_small ch = true -> - 2 ^ 31 <= ch < - 2 ^ 31 + 48.
Proof. intros C T. apply Z.ltb_lt in T. destruct C as (C & _). change (uc_min U) with (- 2 ^ 31) in C. lia. Qed.

Lemma minus_small ch : code_unit U ch -> too_small ch = true -> minus_zero U ch = UB.
Proof.
  intros C T. pose proof (too_small_range ch C T). unfold minus_zero, chk. change (32 - 1) with 31.
  replace ((- 2 ^ 31 <=? ch - 48)) with false by (symmetry; apply Z.leb_gt; lia). reflexivity.
Qed.

Lemma is_integer_small ch : code_unit U ch -> too_small ch = true -> is_integer U ch = UB.
Proof. intros C T. unfold is_integer. rewrite minus_small by assumption. reflexivity. Qed.

Lemma small_digit ch : too_small ch = true -> digit ch = false.
Proof. intros T. apply Z.ltb_lt in T. destruct (digit ch) eqn:D; [apply digit_true in D; lia|reflexivity]. Qed.

Lemma digit_small ch : digit ch = true -> too_small ch = false.
Proof. intros D. destruct (too_small ch) eqn:T; [rewrite small_digit in D; congruence|reflexivity]. Qed.

(** ** The loops over digits *)

Lemma int_loop_small ds : forall s rest i, Forall (code_unit U) s -> run s ds rest -> 0 <= i < 2 ^ 64 ->
  int_digit_loop U s i = if head_small rest then UB else Ok (rest, acc i ds).
Proof.
  induction ds as [|x ds IH]; intros s rest i C (E & A & N) Hi; cbn [app] in E; subst s.
  - rewrite acc_nil by exact Hi. destruct rest as [|ch rest]; [reflexivity|]. cbn [int_digit_loop head_small].
    inversion C; subst. destruct (too_small ch) eqn:T.
    + rewrite is_integer_small by assumption. reflexivity.
    + rewrite is_integer_spec by (apply too_small_okc; assumption). cbn [bind]. rewrite (head_notdigit _ _ N). reflexivity.
  - inversion C; subst. inversion A as [|? ? HX HD]; subst. cbn [int_digit_loop].
    rewrite is_integer_spec by (apply too_small_okc; [assumption|apply digit_small; exact HX]). cbn [bind].
    rewrite HX, (minus_zero_digit U x HX). cbn [bind]. apply digit_true in HX.
    rewrite u64_add_l, u64_add_r. rewrite acc_cons. apply IH; [assumption|repeat split; assumption|apply u64_range].
Qed.

Lemma scan_small ds s rest : Forall (code_unit U) s -> run s ds rest ->
  scan_integer U s = if head_small rest then UB else Ok (rest, acc 0 ds).
Proof.
  intros C R. rewrite <- (int_loop_small ds s rest 0 C R ltac:(lia)).
  destruct s as [|ch s]; [reflexivity|]. cbn [scan_integer int_digit_loop].
  destruct (is_integer U ch) as [b|]; [|reflexivity]. cbn [bind]. destruct b; [|reflexivity].
  destruct (minus_zero U ch) as [d|]; [|reflexivity]. cbn [bind].
  replace (u64 (u64 (10 * 0) + u64 d)) with (u64 d) by (rewrite u64_add_l, u64_add_r; reflexivity).
  rewrite <- peel_loop. apply peel_ext. intros p1 i1.
  rewrite <- peel_loop. apply peel_ext. intros p2 i2.
  rewrite <- peel_loop. apply peel_ext. intros p3 i3.
  rewrite <- peel_loop. apply peel_ext. intros p4 i4. reflexivity.
Qed.

Lemma frac_loop_small ds : forall s rest i, Forall (code_unit U) s -> run s ds rest -> 0 <= i < 2 ^ 64 ->
  frac_digit_loop U s i = if head_small rest then UB else Ok (rest, acc i ds).
Proof.
  induction ds as [|x ds IH]; intros s rest i C (E & A & N) Hi; cbn [app] in E; subst s.
  - rewrite acc_nil by exact Hi. destruct rest as [|ch rest]; [reflexivity|]. cbn [frac_digit_loop head_small].
    inversion C; subst. destruct (too_small ch) eqn:T.
    + rewrite is_integer_small by assumption. reflexivity.
    + rewrite is_integer_spec by (apply too_small_okc; assumption). cbn [bind]. rewrite (head_notdigit _ _ N). reflexivity.
  - inversion C; subst. inversion A as [|? ? HX HD]; subst. cbn [frac_digit_loop].
    rewrite is_integer_spec by (apply too_small_okc; [assumption|apply digit_small; exact HX]). cbn [bind].
    rewrite HX, (minus_zero_digit U x HX). cbn [bind]. apply digit_true in HX.
    rewrite (u8_small (x - 48)) by lia. rewrite u64_add_l, (Z.mul_comm i 10).
    rewrite acc_cons. apply IH; [assumption|repeat split; assumption|apply u64_range].
Qed.

Section Harmless.
Variable z : Z.
Hypothesis ZC : code_unit U z.
Hypothesis ZB : too_small z = false.
Hypothesis ZN : neutral z.

Notation h := (harmless_char z).

Lemma h_fix ch : too_small ch = false -> h ch = ch.
Proof. intros T. unfold harmless_char. rewrite T. reflexivity. Qed.

Lemma z_digit : digit z = false.
Proof. destruct ZN as (N & _). destruct (digit z) eqn:D; [|reflexivity]. unfold nchar in N. rewrite D in N.
  rewrite ?orb_true_r in N. discriminate N. Qed.

Lemma h_digit ch : digit (h ch) = digit ch.
Proof.
  unfold harmless_char. destruct (too_small ch) eqn:T; [|reflexivity]. rewrite z_digit. symmetry. apply small_digit, T.
Qed.

Lemma h_eqb ch x : too_small x = false -> x <> z -> (h ch =? x) = (ch =? x).
Proof.
  intros TX NX. unfold harmless_char. destruct (too_small ch) eqn:T; [|reflexivity].
  transitivity false; [apply Z.eqb_neq; congruence|]. symmetry. apply Z.eqb_neq. congruence.
Qed.

Lemma h_okc ch : code_unit U ch -> okc U (h ch).
Proof.
  intros C. unfold harmless_char. destruct (too_small ch) eqn:T; apply too_small_okc; assumption.
Qed.

Lemma harmless_okc s : Forall (code_unit U) s -> Forall (okc U) (harmless z s).
Proof. intros F. apply Forall_map. eapply Forall_impl; [|exact F]. intros ch. apply h_okc. Qed.

Lemma harmless_digits ds : all_digits ds -> harmless z ds = ds.
Proof. induction 1 as [|ch ds D F IH]; [reflexivity|]. cbn. rewrite h_fix by (apply digit_small; exact D). f_equal. exact IH. Qed.

Lemma harmless_run s ds rest : run s ds rest -> run (harmless z s) ds (harmless z rest).
Proof.
  intros (-> & A & N). split; [|split].
  - unfold harmless. rewrite map_app. f_equal. apply (harmless_digits ds A).
  - exact A.
  - destruct rest as [|ch r]; [exact I|]. cbn in N |- *. rewrite h_digit. exact N.
Qed.

Lemma harmless_length s : length (harmless z s) = length s.
Proof. apply map_length. Qed.

Lemma at_char_fixed x s : head_small s = false -> at_char x (harmless z s) = at_char x s.
Proof. intros H. destruct s as [|ch s]; [reflexivity|]. cbn in *. rewrite h_fix by exact H. reflexivity. Qed.

Lemma at_char_other x s : too_small x = false -> x <> z -> at_char x (harmless z s) = at_char x s.
Proof. intros T N. destruct s as [|ch s]; [reflexivity|]. cbn. apply h_eqb; assumption. Qed.

Lemma tl_harmless s : tl (harmless z s) = harmless z (tl s).
Proof. destruct s; reflexivity. Qed.

Lemma z_not x : nchar x = true \/ In x [43; 45; 40; 41] -> x <> z.
Proof. intros H ->. destruct ZN as (A & _ & B). destruct H; [congruence|contradiction]. Qed.

Ltac lit := first [reflexivity | apply z_not; (left; reflexivity) || (right; cbn; tauto)].

Lemma exp_loop_small ds : forall s rest e, Forall (code_unit U) s -> run s ds rest ->
  exp_digit_loop U s e = if head_small rest then
      (let* _ := exp_digit_loop U (harmless z s) e in UB)
    else (let* '(_, e') := exp_digit_loop U (harmless z s) e in Ok (rest, e')).
Proof.
  induction ds as [|x ds IH]; intros s rest e C (E & A & N); cbn [app] in E; subst s.
  - destruct rest as [|ch rest]; [reflexivity|]. cbn [exp_digit_loop harmless map head_small].
    inversion C; subst. rewrite (is_integer_spec U (h ch)) by (apply h_okc; assumption). rewrite h_digit, (head_notdigit _ _ N). cbn [bind].
    destruct (too_small ch) eqn:T.
    + rewrite is_integer_small by assumption. reflexivity.
    + rewrite is_integer_spec by (apply too_small_okc; assumption). cbn [bind]. rewrite (head_notdigit _ _ N). reflexivity.
  - inversion C; subst. inversion A as [|? ? HX HD]; subst. cbn [exp_digit_loop harmless map].
    rewrite (h_fix x) by (apply digit_small; exact HX).
    rewrite is_integer_spec by (apply too_small_okc; [assumption|apply digit_small; exact HX]). cbn [bind].
    rewrite HX, (minus_zero_digit U x HX). cbn [bind].
    match goal with |- (let* e0 := ?E in _) = _ => destruct E as [e1|] end; cbn [bind]; [|destruct (head_small rest); reflexivity].
    apply IH; [assumption|repeat split; assumption].
Qed.

(** ** Where an Ok result points to *)
Definition moved (r : result) : result := {| r_ptr := harmless z (r_ptr r); r_ec := r_ec r; r_value := r_value r |}.
Definition relocated (p : parsed) : parsed :=
  {| pn_exponent := pn_exponent p; pn_mantissa := pn_mantissa p; pn_lastmatch := harmless z (pn_lastmatch p);
     pn_negative := pn_negative p; pn_valid := pn_valid p; pn_too_many_digits := pn_too_many_digits p;
     pn_integer := pn_integer p; pn_fraction := pn_fraction p; pn_error := pn_error p |}.

Definition relocated_exp (r : sum parsed (list Z * Z * Z)) : sum parsed (list Z * Z * Z) :=
  match r with inl p => inl (relocated p) | inr (p, e, x) => inr (harmless z p, e, x) end.

Lemma exponent_small c o s x :
  let R := rules_of c o in
  let fmt := adjust_for_feature_macros c (o_format o) in
  Forall (code_unit U) s -> - 2 ^ 60 <= x <= 2 ^ 60 ->
  (exists s4 n s5 ds ch r, exp_mark R s s4 /\ exp_sign s4 n s5 /\ run s5 ds (ch :: r) /\ too_small ch = true /\
     parse_exponent U fmt s x = UB) \/
  ((forall s4 n s5 ds s6, exp_mark R s s4 -> exp_sign s4 n s5 -> run s5 ds s6 -> head_small s6 = false) /\
   exists r, parse_exponent U fmt s x = Ok r /\ parse_exponent U fmt (harmless z s) x = Ok (relocated_exp r)).
Proof.
  intros R fmt C HX.
  assert (T : exists r', parse_exponent U fmt (harmless z s) x = Ok r').
  { destruct (parse_exponent_spec c U o (harmless z s) x (harmless_okc s C) HX) as [(e & e' & rest & E & _)|(err & E & _)];
      fold fmt in E; eauto. }
  destruct T as (r' & T). revert T. unfold parse_exponent.
  destruct (flag_adjust c o) as (_ & _ & FS & FF & FO & _). fold R in FS, FF, FO. fold fmt in FS, FF, FO.
  rewrite FS, FF, FO. clear FS FF FO.
  rewrite !(at_char_other 101 s), !(at_char_other 69 s), !(at_char_other 43 s), !(at_char_other 45 s), !(at_char_other 100 s), !(at_char_other 68 s) by lit.
  destruct (exp_mark_code R s) as [EM1 EM2].
  destruct ((scientific R && (at_char 101 s || at_char 69 s))
     || (fortran R && (at_char 43 s || at_char 45 s || at_char 100 s || at_char 68 s))).
  2:{ specialize (EM2 eq_refl). intros T. right. split; [intros s4 n s5 ds s6 M; destruct (EM2 _ M)|].
      destruct (scientific R && negb (fixed R)); eexists; (split; [reflexivity|]); reflexivity. }
  specialize (EM1 eq_refl). clear EM2. cbv zeta. rewrite tl_harmless.
  set (s1 := if at_char 101 s || at_char 69 s || at_char 100 s || at_char 68 s then tl s else s) in *.
  replace (if at_char 101 s || at_char 69 s || at_char 100 s || at_char 68 s then harmless z (tl s) else harmless z s)
    with (harmless z s1) by (unfold s1; destruct (at_char 101 s || at_char 69 s || at_char 100 s || at_char 68 s); reflexivity).
  assert (C1 : Forall (code_unit U) s1).
  { unfold s1. destruct (at_char 101 s || at_char 69 s || at_char 100 s || at_char 68 s); [apply Forall_tl|]; assumption. }
  clearbody s1. pose proof (exp_sign_code s1) as ES.
  rewrite !(at_char_other 45 s1), !(at_char_other 43 s1) by lit. rewrite tl_harmless.
  set (s2 := if at_char 45 s1 then tl s1 else if at_char 43 s1 then tl s1 else s1) in *.
  replace (if at_char 45 s1 then harmless z (tl s1) else if at_char 43 s1 then harmless z (tl s1) else harmless z s1)
    with (harmless z s2) by (unfold s2; destruct (at_char 45 s1), (at_char 43 s1); reflexivity).
  assert (C2 : Forall (code_unit U) s2).
  { unfold s2. destruct (at_char 45 s1); [|destruct (at_char 43 s1)]; try apply Forall_tl; assumption. }
  clearbody s2. set (neg := at_char 45 s1) in *. clearbody neg.
  destruct (run_exists s2) as (ds & rest & RN).
  pose proof (harmless_run _ _ _ RN) as RN'.
  rewrite (at_digit_spec U (harmless z s2)) by (apply harmless_okc; exact C2). rewrite (at_digit_run _ _ _ RN').
  destruct (head_small rest) eqn:HS.
  { intros T. left. destruct rest as [|ch rest]; [discriminate HS|]. exists s1, neg, s2, ds, ch, rest.
    split; [exact EM1|]. split; [exact ES|]. split; [exact RN|]. split; [exact HS|].
    destruct ds as [|d ds].
    - destruct RN as (E & _). cbn [app] in E. subst s2. cbn [at_digit]. inversion C2; subst.
      rewrite is_integer_small by assumption. reflexivity.
    - assert (AD : at_digit U s2 = Ok true).
      { destruct RN as (-> & A & _). cbn [app at_digit]. inversion A; subst. inversion C2; subst.
        rewrite is_integer_spec by (apply too_small_okc; [assumption|apply digit_small; assumption]). f_equal. assumption. }
      rewrite AD. cbn [bind negb] in T |- *. rewrite (exp_loop_small (d :: ds) s2 (ch :: rest) 0 C2 RN). cbn [head_small] in HS |- *. rewrite HS.
      destruct (exp_digit_loop U (harmless z s2) 0) as [v|]; reflexivity. }
  assert (AD : at_digit U s2 = Ok (match ds with [] => false | _ => true end)).
  { destruct ds as [|d ds].
    - destruct RN as (E & _ & N). cbn [app] in E. subst s2. destruct rest as [|ch rest]; [reflexivity|]. cbn [at_digit]. inversion C2; subst.
      rewrite is_integer_spec by (apply too_small_okc; assumption). rewrite (head_notdigit _ _ N). reflexivity.
    - destruct RN as (-> & A & _). cbn [app at_digit]. inversion A; subst. inversion C2; subst.
      rewrite is_integer_spec by (apply too_small_okc; [assumption|apply digit_small; assumption]). f_equal. assumption. }
  rewrite AD. cbn [bind]. intros T. right. split.
  { intros s4 n s5 ds' s6 M S R6. pose proof (exp_mark_unique _ _ _ _ EM1 M). subst s4.
    destruct (exp_sign_unique _ _ _ _ _ ES S) as (-> & ->). destruct (run_unique _ _ _ _ _ RN R6) as (-> & ->). exact HS. }
  destruct ds as [|d ds]; cbn [negb] in *.
  - destruct (negb (fixed R)); eexists; (split; [reflexivity|]); reflexivity.
  - rewrite (exp_loop_small (d :: ds) s2 rest 0 C2 RN), HS.
    destruct (exp_digit_loop U (harmless z s2) 0) as [[p e]|] eqn:EL; cbn [bind] in T |- *; [|discriminate T].
    assert (p = harmless z rest).
    { destruct (exp_digit_loop_spec U (d :: ds) (harmless z s2) (harmless z rest) 0 (harmless_okc _ C2) RN') as (e' & E & _);
        [lia|vm_compute; reflexivity|]. congruence. }
    subst p. destruct (if neg then chk 64 (- e) else Ok e) as [e1|]; cbn [bind] in T |- *; [|discriminate T].
    destruct (chk 64 (x + e1)) as [e2|]; cbn [bind] in T |- *; [|discriminate T].
    eexists. split; reflexivity.
Qed.

Lemma skip_other dp : too_small dp = false -> dp <> z -> forall s dc,
  skip_leading dp (harmless z s) dc = skip_leading dp s dc.
Proof.
  intros T N. induction s as [|ch s IH]; intros dc; [reflexivity|]. cbn [harmless map skip_leading].
  fold (harmless z s). rewrite (h_eqb ch 48), (h_eqb ch dp) by (assumption || lit).
  destruct ((ch =? 48) || (ch =? dp)); [|reflexivity].
  destruct (if ch =? 48 then chk 64 (dc - 1) else Ok dc); [|reflexivity]. cbn [bind]. apply IH.
Qed.

Lemma skip_small dp ip s2 : dp <> z -> all_digits ip -> not_at_digit s2 -> head_small s2 = false -> forall dc,
  skip_leading dp (harmless z (ip ++ s2)) dc = skip_leading dp (ip ++ s2) dc.
Proof.
  intros NZ A N HS. destruct (too_small dp) eqn:T; [|intros dc; apply skip_other; assumption].
  induction A as [|ch ip D A IH]; intros dc.
  - cbn [app]. destruct s2 as [|ch s2]; [reflexivity|]. cbn [harmless map skip_leading]. cbn [head_small] in HS.
    rewrite h_fix by exact HS. cbn in N. destruct (Z.eqb_spec ch 48) as [->|_]; [destruct (N eq_refl)|].
    destruct (Z.eqb_spec ch dp) as [->|_]; [congruence|]. reflexivity.
  - cbn [app harmless map skip_leading]. fold (harmless z (ip ++ s2)). rewrite h_fix by (apply digit_small; exact D).
    destruct ((ch =? 48) || (ch =? dp)); [|reflexivity].
    destruct (if ch =? 48 then chk 64 (dc - 1) else Ok dc); [|reflexivity]. cbn [bind]. apply IH.
Qed.

Lemma eight_digits_wide c p i : loop_parse_if_eight_digits c U p i = Ok (p, i).
Proof. unfold loop_parse_if_eight_digits, has_simd_opt. cbn [uc_is_char uc_is_char16]. rewrite andb_false_r. reflexivity. Qed.

Lemma fraction_some_inv R s fp r : fraction R s true fp r -> exists s', s = point R :: s' /\ run s' fp r.
Proof. intros H. inversion H; subst. eauto. Qed.

(** What parse_number_string does after the fraction. *)
Definition parse_tail (c : cfg) (o : options) (J : bool) (dp : Z) (store neg : bool) (ip : list Z) (hp : bool) (fp : list Z)
  (fo : option (list Z)) (q1 q3 : list Z) : res parsed :=
  if J && hp && (- Z.of_nat (length fp) =? 0) then Ok (report_parse_error q3 No_digits_in_fractional_part)
  else if negb J && (Z.of_nat (length ip) + Z.of_nat (length fp) =? 0) then Ok (report_parse_error q3 No_digits_in_mantissa)
  else
   let* er := parse_exponent U (adjust_for_feature_macros c (o_format o)) q3 (- Z.of_nat (length fp)) in
   match er with
   | inl e => Ok e
   | inr (p, exp_number, exponent) =>
     let* '(i, exponent, too_many) :=
       (if 19 <? Z.of_nat (length ip) + Z.of_nat (length fp) then
          let* dc := skip_leading dp q1 (Z.of_nat (length ip) + Z.of_nat (length fp)) in
          if 19 <? dc then
            if store then
              let* '(i, exponent) := recompute U (if store then Some ip else None) fo exp_number in Ok (i, exponent, true)
            else Ok (acc 0 (ip ++ fp), exponent, true)
          else Ok (acc 0 (ip ++ fp), exponent, false)
        else Ok (acc 0 (ip ++ fp), exponent, false)) in
     Ok {| pn_exponent := exponent; pn_mantissa := i; pn_lastmatch := p; pn_negative := neg; pn_valid := true;
           pn_too_many_digits := too_many; pn_integer := if store then Some ip else None; pn_fraction := fo; pn_error := No_error |}
   end.

(** Parsing the text and parsing the harmless text. *)
Lemma parse_small c o s store :
  let R := rules_of c o in
  Forall (code_unit U) s -> s <> [] -> Z.of_nat (length s) <= 2 ^ 59 -> o_decimal_point o <> z ->
  (ends_at_small R s /\ parse_number_string c U (json R) s o store = UB) \/
  (~ ends_at_small R s /\
   parse_number_string c U (json R) (harmless z s) o store =
     (let* pns := parse_number_string c U (json R) s o store in Ok (relocated pns))).
Proof.
  intros R C NE LEN DZ.
  assert (NS : (forall q, digits_end R s q -> head_small q = false) -> ~ ends_at_small R s).
  { intros H (ch & r & D & T). specialize (H _ D). cbn in H. congruence. }
  destruct s as [|first s]; [congruence|]. unfold parse_number_string. cbn [harmless map deref bind]. fold (harmless z s).
  cbn [tl]. cbv zeta.
  destruct (flag_adjust c o) as (FP & _). cbv zeta in FP. fold R in FP. rewrite FP. clear FP.
  rewrite (h_eqb first 45), (h_eqb first 43) by lit.
  change (o_decimal_point o) with (point R) in *.
  pose proof (exponent_small c o) as EXP. cbv zeta in EXP. fold R in EXP.
  clearbody R.
  inversion C as [|? ? CF CS]; subst.
  set (sg := (first =? 45) || (leading_plus R && negb (json R) && (first =? 43))).
  (* the sign *)
  assert (SG : exists s1, signed R (first :: s) (first =? 45) s1 /\ s1 = (if sg then s else first :: s)).
  { eexists. split; [|reflexivity]. unfold sg. destruct (Z.eqb_spec first 45) as [->|N]; cbn [orb]; [constructor|].
    destruct (leading_plus R && negb (json R) && (first =? 43)) eqn:P.
    - apply andb_true_iff in P. destruct P as (P & E). apply Z.eqb_eq in E. subst first. apply andb_true_iff in P. destruct P as (P & J).
      apply negb_true_iff in J. constructor; assumption.
    - constructor. cbn. intros [E|(-> & A & B)]; [contradiction|]. rewrite A, B in P. discriminate P. }
  destruct SG as (s1 & SG & ES).
  assert (C1 : Forall (code_unit U) s1) by (subst s1; destruct sg; assumption).
  assert (LEN1 : Z.of_nat (length s1) <= 2 ^ 59) by (subst s1; destruct sg; cbn [length] in *; lia).
  destruct (run_exists s1) as (ip & s2 & RI).
  assert (AI : all_digits ip) by apply RI.
  assert (U1 : forall neg s1' ip' s2', signed R (first :: s) neg s1' -> run s1' ip' s2' -> s1' = s1 /\ ip' = ip /\ s2' = s2).
  { intros neg s1' ip' s2' S R'. destruct (signed_unique _ _ _ _ _ _ SG S) as (_ & <-).
    destruct (run_unique _ _ _ _ _ RI R') as (<- & <-). auto. }
  destruct (head_small s2) eqn:H2.
  { (* undefined at the end of the integer part *)
    left. destruct s2 as [|ch r]; [discriminate H2|]. cbn [head_small] in H2. split.
    { exists ch, r. split; [eapply end_integer; eassumption|exact H2]. }
    assert (SC : scan_integer U s1 = UB) by (rewrite (scan_small ip s1 (ch :: r) C1 RI); cbn [head_small]; rewrite H2; reflexivity).
    destruct sg; subst s1; [|cbn [bind]; rewrite SC; reflexivity].
    destruct s as [|x s]; [destruct RI as (E & _); destruct ip; discriminate E|].
    inversion CS; subst. destruct ip as [|d ip].
    - destruct RI as (E & _). cbn [app] in E. injection E as -> ->. rewrite is_integer_small by assumption. reflexivity.
    - assert (D : digit x = true) by (destruct RI as (E & A & _); cbn [app] in E; injection E as -> _; inversion A; assumption).
      rewrite is_integer_spec by (apply too_small_okc; [assumption|apply digit_small; exact D]). rewrite D. cbn [bind negb andb].
      destruct (json R); cbn [bind]; rewrite SC; reflexivity. }
  (* the sign is treated alike *)
  pose proof (harmless_run _ _ _ RI) as RI'.
  assert (E1 : harmless z s1 = if sg then harmless z s else h first :: harmless z s) by (rewrite ES; destruct sg; reflexivity).
  match goal with |- context [bind (if sg then match s with [] => _ | _ => _ end else _) ?K] => set (CONT := K) end.
  match goal with |- context [bind (if sg then match harmless z s with [] => _ | _ => _ end else _) ?K] => set (CONT' := K) end.
  assert (SIGN :
    (exists p e, (if sg then match s with
        | [] => Ok (inl (report_parse_error s Missing_integer_or_dot_after_sign))
        | ch :: _ => let* dig := is_integer U ch in
            if json R then if negb dig then Ok (inl (report_parse_error s Missing_integer_after_sign)) else Ok (inr s)
            else if negb dig && negb (ch =? point R) then Ok (inl (report_parse_error s Missing_integer_or_dot_after_sign)) else Ok (inr s)
        end else Ok (inr (first :: s))) = Ok (inl (report_parse_error p e)) /\
      (if sg then match harmless z s with
        | [] => Ok (inl (report_parse_error (harmless z s) Missing_integer_or_dot_after_sign))
        | ch :: _ => let* dig := is_integer U ch in
            if json R then if negb dig then Ok (inl (report_parse_error (harmless z s) Missing_integer_after_sign)) else Ok (inr (harmless z s))
            else if negb dig && negb (ch =? point R) then Ok (inl (report_parse_error (harmless z s) Missing_integer_or_dot_after_sign)) else Ok (inr (harmless z s))
        end else Ok (inr (h first :: harmless z s))) = Ok (inl (report_parse_error (harmless z p) e)) /\
      ip = [] /\ (json R = true \/ at_char (point R) s2 = false)) \/
    ((if sg then match s with
        | [] => Ok (inl (report_parse_error s Missing_integer_or_dot_after_sign))
        | ch :: _ => let* dig := is_integer U ch in
            if json R then if negb dig then Ok (inl (report_parse_error s Missing_integer_after_sign)) else Ok (inr s)
            else if negb dig && negb (ch =? point R) then Ok (inl (report_parse_error s Missing_integer_or_dot_after_sign)) else Ok (inr s)
        end else Ok (inr (first :: s))) = Ok (inr s1) /\
      (if sg then match harmless z s with
        | [] => Ok (inl (report_parse_error (harmless z s) Missing_integer_or_dot_after_sign))
        | ch :: _ => let* dig := is_integer U ch in
            if json R then if negb dig then Ok (inl (report_parse_error (harmless z s) Missing_integer_after_sign)) else Ok (inr (harmless z s))
            else if negb dig && negb (ch =? point R) then Ok (inl (report_parse_error (harmless z s) Missing_integer_or_dot_after_sign)) else Ok (inr (harmless z s))
        end else Ok (inr (h first :: harmless z s))) = Ok (inr (harmless z s1)))).
  { rewrite E1. destruct sg; [|right; subst s1; split; reflexivity]. subst s1.
    destruct s as [|x s]; cbn [harmless map].
    { left. exists [], Missing_integer_or_dot_after_sign. split; [reflexivity|]. split; [reflexivity|].
      destruct RI as (E & _). destruct ip; [|discriminate E]. cbn in E. subst s2. split; [reflexivity|]. right; reflexivity. }
    assert (TX : too_small x = false).
    { destruct ip as [|d ip]; destruct RI as (E & A & _); cbn [app] in E.
      - subst s2. exact H2.
      - injection E as -> _. apply digit_small. inversion A; assumption. }
    inversion CS; subst. rewrite (h_fix x TX). rewrite is_integer_spec by (apply too_small_okc; assumption). cbn [bind].
    destruct (digit x) eqn:DX; cbn [negb andb].
    { right. destruct (json R); split; reflexivity. }
    assert (ip = [] /\ s2 = x :: s).
    { destruct RI as (E & A & _). destruct ip as [|d ip]; cbn [app] in E; [auto|]. injection E as -> _. inversion A; congruence. }
    destruct H as (-> & ->). cbn [at_char].
    destruct (json R).
    { left. exists (x :: s), Missing_integer_after_sign. split; [reflexivity|]. split; [cbn; rewrite (h_fix x TX); reflexivity|]. split; [reflexivity|]. left; reflexivity. }
    destruct (x =? point R); cbn [negb]; [right; split; [reflexivity|cbn; rewrite ?(h_fix x TX); reflexivity]|].
    left. exists (x :: s), Missing_integer_or_dot_after_sign. split; [reflexivity|]. split; [cbn; rewrite (h_fix x TX); reflexivity|]. split; [reflexivity|]. right; reflexivity. }
  destruct SIGN as [(p & er & SA & SB & EI & NP)|(SA & SB)]; rewrite SA, SB; clear SA SB; cbn [bind].
  { right. split; [|reflexivity]. apply NS. intros q D. subst ip. inversion D; subst.
    - destruct (U1 _ _ _ _ H H0) as (_ & _ & ->). exact H2.
    - destruct (U1 _ _ _ _ H H0) as (_ & -> & <-). cbn [at_char] in NP. rewrite Z.eqb_refl in NP. destruct NP as [J|F]; [|discriminate F].
      destruct (H1 J) as (F & _). congruence.
    - destruct (U1 _ _ _ _ H H0) as (_ & -> & ->). unfold mantissa_ok in H3. destruct (json R) eqn:J; [destruct H3; congruence|].
      destruct NP as [F|NP]; [discriminate F|]. inversion H1; subst.
      + cbn [at_char] in NP. rewrite Z.eqb_refl in NP. discriminate NP.
      + cbn in H3. congruence. }
  subst CONT CONT'. clear E1. cbv beta iota.
  rewrite (scan_small ip s1 s2 C1 RI), H2.
  rewrite (scan_integer_spec U (harmless z s1) ip (harmless z s2) (harmless_okc _ C1) RI'). cbn [bind].
  rewrite (run_remaining _ _ _ RI), (run_firstn _ _ _ RI), (run_remaining _ _ _ RI'), (run_firstn _ _ _ RI').
  rewrite (at_char_other 48 s1) by lit. rewrite (at_char_fixed (point R) s2 H2).
  pose proof (run_length _ _ _ RI) as LI.
  assert (C2 : Forall (code_unit U) s2) by (destruct RI as (E & _); rewrite E in C1; apply Forall_app in C1; apply C1).
  (* JSON: the integer part *)
  assert (JBAD : json R = true -> (ip = [] \/ exists l, ip = 48 :: l /\ l <> []) -> ~ ends_at_small R (first :: s)).
  { intros J B. apply NS. intros q D.
    assert (X : (ip <> [] /\ forall l, ip = 48 :: l -> l = []) -> False).
    { intros (A1 & A2). destruct B as [->|(l & -> & NL)]; [congruence|]. apply NL, A2. reflexivity. }
    inversion D; subst.
    - destruct (U1 _ _ _ _ H H0) as (_ & _ & ->). exact H2.
    - destruct (U1 _ _ _ _ H H0) as (_ & -> & _). destruct (X (H1 J)).
    - destruct (U1 _ _ _ _ H H0) as (_ & -> & _). unfold mantissa_ok in H3. rewrite J in H3. destruct H3 as (A1 & A2 & _). destruct (X (conj A1 A2)). }
  destruct (json R && (Z.of_nat (length ip) =? 0)) eqn:J1.
  { right. split; [|reflexivity]. apply andb_true_iff in J1. destruct J1 as (J & L0). apply Z.eqb_eq in L0.
    apply (JBAD J). left. destruct ip; [reflexivity|cbn [length] in L0; lia]. }
  destruct (json R && at_char 48 s1 && (1 <? Z.of_nat (length ip))) eqn:J2.
  { right. split; [|reflexivity]. apply andb_true_iff in J2. destruct J2 as (J & L0). apply Z.ltb_lt in L0.
    apply andb_true_iff in J. destruct J as (J & AC). apply (JBAD J). right.
    destruct ip as [|d ip]; [cbn [length] in L0; lia|]. destruct RI as (E & _). rewrite E in AC. cbn [app at_char] in AC.
    apply Z.eqb_eq in AC. subst d. exists ip. split; [reflexivity|]. intros ->. cbn [length] in L0. lia. }
  assert (JOK : json R = true -> ip <> [] /\ forall l, ip = 48 :: l -> l = []).
  { intros J. rewrite J in J1, J2. cbn [andb] in J1, J2. split; [intros ->; discriminate J1|].
    intros l ->. destruct RI as (E & _). rewrite E in J2. cbn [app at_char] in J2. cbn [Z.eqb Pos.eqb andb] in J2.
    apply Z.ltb_ge in J2. cbn [length] in J2. destruct l; [reflexivity|cbn [length] in J2; lia]. }
  clear JBAD J1 J2.
  (* the fraction *)
  assert (FR : (exists s2' fp s3, s2 = point R :: s2' /\ run s2' fp s3 /\ at_char (point R) s2 = true /\ fraction R s2 true fp s3) \/
               (at_char (point R) s2 = false /\ fraction R s2 false [] s2)).
  { destruct s2 as [|x s2]; [right; split; [reflexivity|constructor; exact I]|]. cbn [at_char].
    destruct (Z.eqb_spec x (point R)) as [->|N].
    - left. destruct (run_exists s2) as (fp & s3 & RF). exists s2, fp, s3. split; [reflexivity|]. split; [exact RF|]. split; [reflexivity|].
      constructor. exact RF.
    - right. split; [reflexivity|]. constructor. exact N. }
  assert (TAIL : forall hp fp s3 fo,
    fraction R s2 hp fp s3 -> head_small s3 = false -> Forall (code_unit U) s3 -> (length ip + length fp <= length s1)%nat -> all_digits fp ->
    span_list fo = (if store then fp else []) ->
    let T q1 q3 := parse_tail c o (json R) (point R) store (first =? 45) ip hp fp fo q1 q3 in
    (ends_at_small R (first :: s) /\ T s1 s3 = UB) \/
    (~ ends_at_small R (first :: s) /\ T (harmless z s1) (harmless z s3) = (let* pns := T s1 s3 in Ok (relocated pns)))).
  { intros hp fp s3 fo F H3 C3 LF AF FO. cbv zeta. unfold parse_tail.
    assert (NM : ~ mantissa_ok R ip hp fp -> ~ ends_at_small R (first :: s)).
    { intros M. apply NS. intros q D. inversion D; subst.
      - destruct (U1 _ _ _ _ H H0) as (_ & _ & ->). exact H2.
      - destruct (U1 _ _ _ _ H H0) as (_ & -> & <-).
        pose proof (fraction_some R s4 fp0 q H4) as F'. destruct (fraction_unique _ _ _ _ _ _ _ _ F F') as (_ & _ & ->). exact H3.
      - destruct (U1 _ _ _ _ H H0) as (_ & -> & ->). destruct (fraction_unique _ _ _ _ _ _ _ _ F H1) as (-> & -> & ->). contradiction. }
    destruct (json R && hp && (- Z.of_nat (length fp) =? 0)) eqn:K1.
    { right. split; [|reflexivity]. apply NM. unfold mantissa_ok.
      apply andb_true_iff in K1. destruct K1 as (K & L0). apply Z.eqb_eq in L0. apply andb_true_iff in K. destruct K as (J & HP).
      rewrite J. intros (_ & _ & M). destruct fp; [exact (M HP eq_refl)|cbn [length] in L0; clear - L0; lia]. }
    destruct (negb (json R) && (Z.of_nat (length ip) + Z.of_nat (length fp) =? 0)) eqn:K2.
    { right. split; [|reflexivity]. apply NM. unfold mantissa_ok.
      apply andb_true_iff in K2. destruct K2 as (J & L0). apply Z.eqb_eq in L0. apply negb_true_iff in J.
      rewrite J. intros M. apply M. destruct ip, fp; cbn [length] in L0; [reflexivity|clear - L0; lia..]. }
    assert (MO : mantissa_ok R ip hp fp).
    { unfold mantissa_ok. destruct (json R); cbn [andb negb] in K1, K2.
      - destruct (JOK eq_refl) as (A1 & A2). split; [exact A1|]. split; [exact A2|]. intros -> ->. discriminate K1.
      - intros E. apply app_eq_nil in E. destruct E as (-> & ->). discriminate K2. }
    clear NM K1 K2.
    destruct (EXP s3 (- Z.of_nat (length fp)) C3) as [(s4 & n & s5 & ds & ch & r & M & S4 & R6 & T & E)|(NX & er & EA & EB)]; [lia| |].
    { left. rewrite E. split; [|reflexivity]. exists ch, r. split; [|exact T]. eapply end_exponent; eassumption. }
    right. split.
    { apply NS. intros q D. inversion D; subst.
      - destruct (U1 _ _ _ _ H H0) as (_ & _ & ->). exact H2.
      - destruct (U1 _ _ _ _ H H0) as (_ & -> & <-).
        pose proof (fraction_some R s4 fp0 q H4) as F'. destruct (fraction_unique _ _ _ _ _ _ _ _ F F') as (_ & _ & ->). exact H3.
      - destruct (U1 _ _ _ _ H H0) as (_ & -> & ->). destruct (fraction_unique _ _ _ _ _ _ _ _ F H1) as (-> & -> & ->).
        eapply NX; eassumption. }
    rewrite EA, EB. cbn [bind]. destruct er as [err|[[p en] ex]]; cbn [relocated_exp]; [reflexivity|].
    assert (SK : skip_leading (point R) (harmless z s1) (Z.of_nat (length ip) + Z.of_nat (length fp)) =
                 skip_leading (point R) s1 (Z.of_nat (length ip) + Z.of_nat (length fp))).
    { destruct RI as (-> & A & N). apply skip_small; assumption. }
    rewrite SK.
    match goal with |- context [if 19 <? Z.of_nat (length ip) + Z.of_nat (length fp) then ?A else ?B] =>
      destruct (if 19 <? Z.of_nat (length ip) + Z.of_nat (length fp) then A else B) as [[[i e] tm]|] end; reflexivity. }
  destruct FR as [(s2' & fp & s3 & E2 & RF & AC & FR)|(AC & FR)]; rewrite AC.
  - pose proof (harmless_run _ _ _ RF) as RF'. subst s2. cbn [harmless map tl]. fold (harmless z s2').
    inversion C2 as [|? ? CP C2']; subst.
    assert (C3 : Forall (code_unit U) s3) by (destruct RF as (E & _); rewrite E in C2'; apply Forall_app in C2'; apply C2').
    pose proof (run_length _ _ _ RF) as LF. cbn [length] in LI.
    rewrite !eight_digits_wide. cbn [bind].
    rewrite (frac_loop_small fp s2' s3 (acc 0 ip) C2' RF (acc_range _ _)).
    destruct (head_small s3) eqn:H3.
    { left. split; [|reflexivity]. destruct s3 as [|ch r]; [discriminate H3|]. exists ch, r. split; [|exact H3].
      eapply end_fraction; eassumption. }
    rewrite (frac_digit_loop_spec U fp (harmless z s2') (harmless z s3) (acc 0 ip) (harmless_okc _ C2') RF' (acc_range _ _)). cbn [bind].
    replace (remaining s3 - remaining s2') with (- Z.of_nat (length fp)) by (pose proof (run_remaining _ _ _ RF); clear - H; lia).
    replace (remaining (harmless z s3) - remaining (harmless z s2')) with (- Z.of_nat (length fp)) by (pose proof (run_remaining _ _ _ RF'); clear - H; lia).
    rewrite (run_firstn _ _ _ RF), (run_firstn _ _ _ RF').
    rewrite !chk64_Ok by (clear - LI LF LEN1; lia). cbn [bind].
    rewrite <- acc_app. replace (Z.of_nat (length ip) - - Z.of_nat (length fp)) with (Z.of_nat (length ip) + Z.of_nat (length fp)) by (clear; lia).
    apply (TAIL true fp s3 (if store then Some fp else None) FR H3 C3).
    + clear - LI LF. lia.
    + apply RF.
    + destruct store; reflexivity.
  - cbn [bind]. pose proof (TAIL false [] s2 None FR H2 C2) as TT. cbv zeta in TT. unfold parse_tail in TT.
    rewrite app_nil_r, Z.add_0_r in TT. apply TT.
    + clear - LI. cbn [length]. lia.
    + constructor.
    + destruct store; reflexivity.
Qed.

(** ** Infinity and NaN *)
Lemma letter_small e : 97 <= e <= 122 -> too_small e = false /\ too_small (e - 32) = false /\ e <> z /\ e - 32 <> z.
Proof.
  intros L. unfold too_small. split; [apply Z.ltb_ge; lia|]. split; [apply Z.ltb_ge; lia|]. split.
  - apply z_not. left. unfold nchar. replace (97 <=? e) with true by (symmetry; apply Z.leb_le; lia).
    replace (e <=? 122) with true by (symmetry; apply Z.leb_le; lia). reflexivity.
  - apply z_not. left. unfold nchar. replace (65 <=? e - 32) with true by (symmetry; apply Z.leb_le; lia).
    replace (e - 32 <=? 90) with true by (symmetry; apply Z.leb_le; lia). rewrite !orb_true_r. reflexivity.
Qed.

Lemma h_letter ch e : 97 <= e <= 122 -> (h ch = e \/ h ch = e - 32 <-> ch = e \/ ch = e - 32).
Proof.
  intros L. destruct (letter_small e L) as (A & B & D & F). rewrite <- !Z.eqb_eq. rewrite !h_eqb by assumption. reflexivity.
Qed.

Lemma h_lower ch e : code_unit U ch -> 97 <= e <= 122 -> (lower U (h ch) = e <-> lower U ch = e).
Proof. intros C L. rewrite !lower_unit by (assumption || apply h_okc, C). apply h_letter, L. Qed.

Lemma h_lor ch e : code_unit U ch -> 97 <= e <= 122 -> (Z.lor (h ch) 32 =? e) = (Z.lor ch 32 =? e).
Proof.
  intros C L. apply eq_true_iff_eq. rewrite !Z.eqb_eq. rewrite !(lor_unit U) by (assumption || apply h_okc, C). apply h_letter, L.
Qed.

Lemma h_lowers w : letters w -> forall p, Forall (code_unit U) p -> (length w <= length p)%nat ->
  (map (lower U) (firstn (length w) (harmless z p)) = w <-> map (lower U) (firstn (length w) p) = w).
Proof.
  induction 1 as [|e w He Hw IH]; intros p C L; [reflexivity|]. destruct p as [|ch p]; [cbn in L; lia|].
  inversion C as [|? ? CC CP]; subst. cbn [length firstn map harmless] in *. fold (harmless z p).
  specialize (IH p CP ltac:(lia)). pose proof (h_lower ch e CC He) as HL. unfold harmless in IH |- *.
  split; intros E; injection E as E1 E2; f_equal; tauto.
Qed.

Lemma word_h c both p w : letters w -> Forall (code_unit U) p -> (length w <= length p)%nat -> (length w <= 2)%nat ->
  (both = false -> length w = 2%nat) -> casecmp_word c U both (harmless z p) w = casecmp_word c U both p w.
Proof.
  intros LW C L L2 BO.
  destruct (casecmp_word_spec c U both p w LW L L2 BO) as (b & E & H).
  destruct (casecmp_word_spec c U both (harmless z p) w LW) as (b' & E' & H'); [rewrite harmless_length; exact L|exact L2|exact BO|].
  rewrite E, E'. f_equal. apply eq_true_iff_eq. rewrite H, H'. apply h_lowers; assumption.
Qed.

Lemma const_h w : letters w -> forall p, Forall (code_unit U) p -> casecmp_const (harmless z p) w = casecmp_const p w.
Proof.
  induction 1 as [|e w He Hw IH]; intros p C; [reflexivity|]. cbn [casecmp_const].
  destruct p as [|ch p]; [reflexivity|]. inversion C; subst. cbn [harmless map deref bind tl]. fold (harmless z p).
  rewrite h_lor by assumption. destruct (Z.lor ch 32 =? e); [apply IH; assumption|reflexivity].
Qed.

Lemma cmp3_h c p a b d r : letters [a; b; d] -> Forall (code_unit U) p -> (3 <= length p)%nat ->
  strncasecmp3 c U (harmless z p) (a :: b :: d :: r) = strncasecmp3 c U p (a :: b :: d :: r).
Proof.
  intros LW C L. unfold strncasecmp3. cbn [firstn uc_bits]. destruct (in_constexpr c); [apply const_h; assumption|].
  assert (L2 : letters [a; b]) by (inversion LW as [|? ? A1 A2]; subst; inversion A2; subst; repeat constructor; lia).
  rewrite word_h by (assumption || cbn; lia || reflexivity). 
  destruct (casecmp_word c U false p [a; b]) as [[|]|]; try reflexivity. cbn [bind].
  destruct p as [|y0 [|y1 [|y2 p]]]; cbn [length] in L; try lia. rewrite !advance_Ok by (cbn; lia). cbn [harmless map skipn bind deref].
  change (nth_res (a :: b :: d :: r) 2) with (Ok d). cbn [bind].
  unfold letters in LW. rewrite Forall_forall in LW, C. rewrite h_lor; [reflexivity|apply C; cbn; auto|apply LW; cbn; auto].
Qed.

Lemma cmp5_h c p a b d e f r : letters [a; b; d; e; f] -> Forall (code_unit U) p -> (5 <= length p)%nat ->
  strncasecmp5 c U (harmless z p) (a :: b :: d :: e :: f :: r) = strncasecmp5 c U p (a :: b :: d :: e :: f :: r).
Proof.
  intros LW C L. unfold strncasecmp5. cbn [firstn skipn uc_bits]. destruct (in_constexpr c); [apply const_h; assumption|].
  assert (LL : letters [a; b] /\ letters [d; e]).
  { unfold letters in *. rewrite Forall_forall in LW. split; apply Forall_forall; intros x X; apply LW; cbn in *; tauto. }
  destruct LL as (L2 & L3).
  rewrite word_h by (assumption || cbn; lia || reflexivity). 
  destruct (casecmp_word c U false p [a; b]) as [[|]|]; try reflexivity. cbn [bind].
  destruct p as [|y0 [|y1 [|y2 [|y3 [|y4 p]]]]]; cbn [length] in L; try lia. rewrite !advance_Ok by (cbn; lia). cbn [harmless map skipn bind].
  assert (C3 : Forall (code_unit U) (y2 :: y3 :: y4 :: p)) by (inversion C as [|? ? _ C']; inversion C'; assumption).
  rewrite <- (word_h c false (y2 :: y3 :: y4 :: p) [d; e] L3 C3) by (cbn; lia || reflexivity). cbn [harmless map].
  match goal with |- bind ?X _ = _ => destruct X as [[|]|] end; try reflexivity. cbn [bind deref].
  change (nth_res (a :: b :: d :: e :: f :: r) 4) with (Ok f). cbn [bind].
  unfold letters in LW. rewrite Forall_forall in LW, C. rewrite h_lor; [reflexivity|apply C; cbn; auto 6|apply LW; cbn; auto 6].
Qed.

Lemma payload_h p : nan_payload (harmless z p) = option_map (harmless z) (nan_payload p).
Proof.
  induction p as [|ch p IH]; [reflexivity|]. cbn [harmless map nan_payload]. fold (harmless z p).
  rewrite (h_eqb ch 41) by lit. destruct (ch =? 41); [reflexivity|].
  unfold harmless_char. destruct (too_small ch) eqn:T.
  - destruct ZN as (N & _). change (((97 <=? z) && (z <=? 122)) || ((65 <=? z) && (z <=? 90)) || ((48 <=? z) && (z <=? 57)) || (z =? 95)) with (nchar z).
    rewrite N. apply Z.ltb_lt in T.
    replace (97 <=? ch) with false by (symmetry; apply Z.leb_gt; lia). replace (65 <=? ch) with false by (symmetry; apply Z.leb_gt; lia).
    replace (48 <=? ch) with false by (symmetry; apply Z.leb_gt; lia). replace (ch =? 95) with false by (symmetry; apply Z.eqb_neq; lia). reflexivity.
  - rewrite IH. destruct (_ || (ch =? 95)); reflexivity.
Qed.

Lemma infnan_h c t p fmt : Forall (code_unit U) p ->
  parse_infnan c U t (harmless z p) fmt = (let* r := parse_infnan c U t p fmt in Ok (moved r)).
Proof.
  intros C. unfold parse_infnan. destruct p as [|first p]; [reflexivity|]. cbn [harmless map deref bind]. fold (harmless z p).
  rewrite (h_eqb first 45), (h_eqb first 43) by lit. cbn [tl]. change (h first :: harmless z p) with (harmless z (first :: p)).
  set (q := if (first =? 45) || (flag fmt f_allow_leading_plus && (first =? 43)) then p else first :: p).
  replace (if (first =? 45) || (flag fmt f_allow_leading_plus && (first =? 43)) then harmless z p else harmless z (first :: p))
    with (harmless z q) by (unfold q; destruct (_ || _); reflexivity).
  assert (CQ : Forall (code_unit U) q) by (unfold q; inversion C; subst; destruct (_ || _); assumption).
  clearbody q. unfold remaining. rewrite harmless_length. destruct (Z.leb_spec 3 (Z.of_nat (length q))) as [L3|L3]; [|reflexivity].
  change str_const_nan with [110; 97; 110]. change str_const_inf with (105 :: 110 :: 102 :: [105; 110; 105; 116; 121]).
  rewrite !cmp3_h by (assumption || lia || (repeat constructor; lia)).
  assert (AD : forall n, (n <= length q)%nat -> advance n (harmless z q) = (let* r := advance n q in Ok (harmless z r))).
  { intros n L. rewrite !advance_Ok by (rewrite ?harmless_length; exact L). cbn [bind]. f_equal. apply skipn_map. }
  rewrite !(AD 3%nat) by lia. rewrite !(advance_Ok 3 q) by lia. cbn [bind].
  destruct (strncasecmp3 c U q [110; 97; 110]) as [[|]|]; cbn [bind]; try reflexivity.
  - unfold moved. cbn [r_ptr r_ec r_value]. do 2 f_equal. 
    destruct (skipn 3 q) as [|ch q4]; [reflexivity|]. cbn [harmless map]. fold (harmless z q4). rewrite (h_eqb ch 40) by lit.
    destruct (ch =? 40); [|reflexivity]. rewrite payload_h. destruct (nan_payload q4); reflexivity.
  - destruct (strncasecmp3 c U q [105; 110; 102; 105; 110; 105; 116; 121]) as [[|]|]; cbn [bind]; try reflexivity.
    change (skipn 3 [105; 110; 102; 105; 110; 105; 116; 121]) with [105; 110; 105; 116; 121].
    assert (CS : Forall (code_unit U) (skipn 3 q)).
    { rewrite <- (firstn_skipn 3 q) in CQ. apply Forall_app in CQ. apply CQ. }
    destruct (Z.leb_spec 8 (Z.of_nat (length q))) as [L8|L8]; [|reflexivity].
    rewrite (cmp5_h c (skipn 3 q) 105 110 105 116 121 []); [|repeat (apply Forall_cons; [lia|]); apply Forall_nil|exact CS|rewrite skipn_length; lia].
    destruct (strncasecmp5 c U (skipn 3 q) [105; 110; 105; 116; 121]) as [[|]|]; cbn [bind]; try reflexivity.
    rewrite (AD 8%nat), (advance_Ok 8 q) by lia. reflexivity.
Qed.

(** ** The conversion does not look at the end pointer *)
Lemma pns_h c t pns : from_chars_advanced_pns c U t (relocated pns) = (let* r := from_chars_advanced_pns c U t pns in Ok (moved r)).
Proof.
  unfold from_chars_advanced_pns. cbn [relocated pn_too_many_digits pn_mantissa pn_exponent pn_negative pn_lastmatch].
  assert (D : forall am, digit_comp c U t (relocated pns) am = digit_comp c U t pns am) by reflexivity.
  match goal with |- bind ?X _ = _ => destruct X as [[v|]|] end; cbn [bind]; try reflexivity.
  match goal with |- bind ?X _ = _ => destruct X as [am|] end; cbn [bind]; try reflexivity.
  match goal with |- bind ?X _ = _ => destruct X as [am1|] end; cbn [bind]; try reflexivity.
  rewrite D. match goal with |- bind ?X _ = _ => destruct X as [am2|] end; cbn [bind]; try reflexivity.
  match goal with |- bind ?X _ = _ => destruct X as [v|] end; cbn [bind]; reflexivity.
Qed.
End Harmless.

(** ** What is left over is a suffix of the text *)
Definition tail_of (s q : list Z) : Prop := exists p, s = p ++ q.

Lemma tail_refl s : tail_of s s. Proof. exists []. reflexivity. Qed.
Lemma tail_trans a b d : tail_of a b -> tail_of b d -> tail_of a d.
Proof. intros (p & ->) (q & ->). exists (p ++ q). apply app_assoc. Qed.
Lemma tail_cons x s q : tail_of s q -> tail_of (x :: s) q.
Proof. intros (p & ->). exists (x :: p). reflexivity. Qed.
Lemma tail_tl s : tail_of s (tl s).
Proof. destruct s; [apply tail_refl|]. apply tail_cons, tail_refl. Qed.
Lemma tail_skipn n s : tail_of s (skipn n s).
Proof. exists (firstn n s). symmetry. apply firstn_skipn. Qed.

Lemma int_loop_tail s : forall i q j, int_digit_loop U s i = Ok (q, j) -> tail_of s q.
Proof.
  induction s as [|ch s IH]; intros i q j E; cbn [int_digit_loop] in E; [injection E as <- _; apply tail_refl|].
  destruct (is_integer U ch) as [[|]|]; cbn [bind] in E; try discriminate E; [|injection E as <- _; apply tail_refl].
  destruct (minus_zero U ch); cbn [bind] in E; [|discriminate E]. apply tail_cons. eapply IH. exact E.
Qed.

Lemma frac_loop_tail s : forall i q j, frac_digit_loop U s i = Ok (q, j) -> tail_of s q.
Proof.
  induction s as [|ch s IH]; intros i q j E; cbn [frac_digit_loop] in E; [injection E as <- _; apply tail_refl|].
  destruct (is_integer U ch) as [[|]|]; cbn [bind] in E; try discriminate E; [|injection E as <- _; apply tail_refl].
  destruct (minus_zero U ch); cbn [bind] in E; [|discriminate E]. apply tail_cons. eapply IH. exact E.
Qed.

Lemma exp_loop_tail s : forall i q j, exp_digit_loop U s i = Ok (q, j) -> tail_of s q.
Proof.
  induction s as [|ch s IH]; intros i q j E; cbn [exp_digit_loop] in E; [injection E as <- _; apply tail_refl|].
  destruct (is_integer U ch) as [[|]|]; cbn [bind] in E; try discriminate E; [|injection E as <- _; apply tail_refl].
  destruct (minus_zero U ch); cbn [bind] in E; [|discriminate E]. apply tail_cons.
  repeat match type of E with bind ?X _ = _ => destruct X; cbn [bind] in E; [|discriminate E] end. eapply IH. exact E.
Qed.

Lemma scan_tail s q j : scan_integer U s = Ok (q, j) -> tail_of s q.
Proof.
  intros E. destruct s as [|ch s]; cbn [scan_integer] in E; [injection E as <- _; apply tail_refl|].
  destruct (is_integer U ch) as [[|]|]; cbn [bind] in E; try discriminate E; [|injection E as <- _; apply tail_refl].
  destruct (minus_zero U ch) as [d|]; cbn [bind] in E; [|discriminate E]. apply tail_cons.
  apply (int_loop_tail s (u64 d) q j). rewrite <- E.
  rewrite <- peel_loop. apply peel_ext. intros p1 i1.
  rewrite <- peel_loop. apply peel_ext. intros p2 i2.
  rewrite <- peel_loop. apply peel_ext. intros p3 i3.
  rewrite <- peel_loop. apply peel_ext. intros p4 i4. reflexivity.
Qed.

Lemma exponent_tail fmt s x er : parse_exponent U fmt s x = Ok er ->
  match er with inl e => tail_of s (pn_lastmatch e) | inr (q, _, _) => tail_of s q end.
Proof.
  unfold parse_exponent. destruct (_ || _).
  - match goal with |- context [at_char 45 ?X] => match X with if _ then _ else _ => set (p1 := X) end end. assert (T1 : tail_of s p1) by (unfold p1; destruct (_ || _); [apply tail_tl|apply tail_refl]).
    set (p2 := if at_char 45 p1 then tl p1 else if at_char 43 p1 then tl p1 else p1).
    assert (T2 : tail_of s p2).
    { unfold p2. destruct (at_char 45 p1); [|destruct (at_char 43 p1)]; try (eapply tail_trans; [exact T1|apply tail_tl]). exact T1. }
    clearbody p1 p2. destruct (at_digit U p2) as [[|]|]; cbn [bind negb]; [| |discriminate].
    + destruct (exp_digit_loop U p2 0) as [[p3 n]|] eqn:EL; cbn [bind]; [|discriminate].
      apply exp_loop_tail in EL.
      match goal with |- bind ?X _ = _ -> _ => destruct X as [n'|]; cbn [bind]; [|discriminate] end.
      match goal with |- bind ?X _ = _ -> _ => destruct X as [n''|]; cbn [bind]; [|discriminate] end.
      intros E. injection E as <-. eapply tail_trans; eassumption.
    + destruct (negb (flag fmt f_fixed)); intros E; injection E as <-; [exact T2|apply tail_refl].
  - destruct (_ && _); intros E; injection E as <-; apply tail_refl.
Qed.

Lemma parse_tail_of c bjf s o store pns : parse_number_string c U bjf s o store = Ok pns -> tail_of s (pn_lastmatch pns).
Proof.
  unfold parse_number_string. cbv zeta. destruct s as [|first s]; [discriminate|]. cbn [deref bind tl].
  match goal with |- bind ?X _ = _ -> _ => destruct X as [sgn|] eqn:SG; cbn [bind]; [|discriminate] end.
  assert (TS : match sgn with inl e => tail_of (first :: s) (pn_lastmatch e) | inr p => tail_of (first :: s) p end).
  { revert SG. destruct (_ || _).
    - destruct s as [|ch s]; [intros E; injection E as <-; apply tail_cons, tail_refl|].
      destruct (is_integer U ch) as [dig|]; cbn [bind]; [|discriminate].
      destruct bjf; match goal with |- (if ?b then _ else _) = _ -> _ => destruct b end; intros E; injection E as <-; apply tail_cons, tail_refl.
    - intros E; injection E as <-. apply tail_refl. }
  clear SG. destruct sgn as [e|p]; [intros E; injection E as <-; exact TS|].
  destruct (scan_integer U p) as [[p1 i]|] eqn:SI; cbn [bind]; [|discriminate]. apply scan_tail in SI.
  assert (T1 : tail_of (first :: s) p1) by (eapply tail_trans; eassumption).
  match goal with |- (if ?b then _ else _) = _ -> _ => destruct b end; [intros E; injection E as <-; exact T1|].
  match goal with |- (if ?b then _ else _) = _ -> _ => destruct b end; [intros E; injection E as <-; exact TS|].
  match goal with |- bind ?X _ = _ -> _ => destruct X as [[[[[p2 i2] ex] dc] fr]|] eqn:FR; cbn [bind]; [|discriminate] end.
  assert (T2 : tail_of (first :: s) p2).
  { revert FR. destruct (at_char (o_decimal_point o) p1); [|intros E; injection E as <- _ _ _ _; exact T1].
    rewrite eight_digits_wide. cbn [bind]. destruct (frac_digit_loop U (tl p1) i) as [[p3 i3]|] eqn:FL; cbn [bind]; [|discriminate].
    apply frac_loop_tail in FL. match goal with |- bind ?X _ = _ -> _ => destruct X as [d|]; cbn [bind]; [|discriminate] end.
    intros E; injection E as <- _ _ _ _. eapply tail_trans; [exact T1|]. eapply tail_trans; [apply tail_tl|exact FL]. }
  clear FR. match goal with |- (if ?b then _ else _) = _ -> _ => destruct b end; [intros E; injection E as <-; exact T2|].
  match goal with |- (if ?b then _ else _) = _ -> _ => destruct b end; [intros E; injection E as <-; exact T2|].
  destruct (parse_exponent U _ p2 ex) as [er|] eqn:PE; cbn [bind]; [|discriminate]. apply exponent_tail in PE.
  destruct er as [e|[[p3 n] x]]; [intros E; injection E as <-; eapply tail_trans; eassumption|].
  match goal with |- bind ?X _ = _ -> _ => destruct X as [[[i4 e4] tm]|]; cbn [bind]; [|discriminate] end.
  intros E; injection E as <-. cbn [pn_lastmatch]. eapply tail_trans; eassumption.
Qed.

Lemma payload_tail p q : nan_payload p = Some q -> tail_of p q.
Proof.
  induction p as [|ch p IH]; cbn [nan_payload]; [discriminate|]. destruct (ch =? 41).
  - intros E. injection E as <-. apply tail_cons, tail_refl.
  - destruct (_ || (ch =? 95)); [|discriminate]. intros E. apply tail_cons, IH, E.
Qed.

Lemma advance_tail n p q : advance n p = Ok q -> tail_of p q.
Proof.
  unfold advance. match goal with |- (if ?b then _ else _) = _ -> _ => destruct b end; [|discriminate].
  intros E. injection E as <-. apply tail_skipn.
Qed.

Lemma infnan_tail c t p fmt r : parse_infnan c U t p fmt = Ok r -> tail_of p (r_ptr r).
Proof.
  unfold parse_infnan. destruct p as [|first p]; [discriminate|]. cbn [deref bind tl]. cbv zeta.
  set (q := if _ || _ then p else first :: p).
  assert (T : tail_of (first :: p) q) by (unfold q; destruct (_ || _); [apply tail_cons|]; apply tail_refl).
  clearbody q. destruct (3 <=? remaining q); [|intros E; injection E as <-; apply tail_refl].
  destruct (strncasecmp3 c U q str_const_nan) as [[|]|]; cbn [bind]; [| |discriminate].
  - destruct (advance 3 q) as [p3|] eqn:A3; cbn [bind]; [|discriminate]. apply advance_tail in A3.
    intros E. injection E as <-. cbn [r_ptr]. eapply tail_trans; [exact T|]. eapply tail_trans; [exact A3|].
    destruct p3 as [|ch p4]; [apply tail_refl|]. destruct (ch =? 40); [|apply tail_refl].
    destruct (nan_payload p4) as [p5|] eqn:NP; [|apply tail_refl]. apply tail_cons, payload_tail, NP.
  - destruct (strncasecmp3 c U q str_const_inf) as [[|]|]; cbn [bind]; [| |discriminate].
    + destruct (advance 3 q) as [p3|] eqn:A3; cbn [bind]; [|discriminate]. apply advance_tail in A3.
      match goal with |- bind ?X _ = _ -> _ => destruct X as [[|]|] eqn:X5; cbn [bind]; [| |discriminate] end.
      * destruct (advance 8 q) as [p8|] eqn:A8; cbn [bind]; [|discriminate]. apply advance_tail in A8.
        intros E. injection E as <-. eapply tail_trans; eassumption.
      * intros E. injection E as <-. eapply tail_trans; eassumption.
    + intros E. injection E as <-. apply tail_refl.
Qed.

Lemma pns_ptr c t pns r : from_chars_advanced_pns c U t pns = Ok r -> r_ptr r = pn_lastmatch pns.
Proof.
  unfold from_chars_advanced_pns.
  repeat match goal with
  | |- Ok _ = Ok _ -> _ => intros E; injection E as <-; reflexivity
  | |- UB = _ -> _ => discriminate
  | |- bind ?X _ = _ -> _ => destruct X; cbn [bind]
  | |- match ?X with _ => _ end = _ -> _ => destruct X
  end.
Qed.

(** ** from_chars behind the white space *)
Definition from_start (c : cfg) (t : ftype) (o : options) (p : list Z) : res result :=
  let fmt := adjust_for_feature_macros c (o_format o) in
  match p with
  | [] => Ok {| r_ptr := p; r_ec := InvalidArgument; r_value := None |}
  | _ =>
    let* pns := parse_number_string c U (json (rules_of c o)) p o false in
    if negb (pn_valid pns) then
      if flag fmt f_no_infnan then Ok {| r_ptr := p; r_ec := InvalidArgument; r_value := None |}
      else parse_infnan c U t p fmt
    else if pn_too_many_digits pns then parse_number_slow_path c U t p o (json (rules_of c o))
    else
      let* cl := clinger_fast_path_impl c t (pn_mantissa pns) (pn_exponent pns) (pn_negative pns) in
      match cl with
      | Some v => Ok {| r_ptr := pn_lastmatch pns; r_ec := Success; r_value := Some v |}
      | None =>
        let* am := compute_float c t (pn_exponent pns) (pn_mantissa pns) in
        if am_power2 am <? 0 then parse_number_slow_path c U t p o (json (rules_of c o))
        else
          let* v := to_float t (pn_negative pns) am in
          Ok {| r_ptr := pn_lastmatch pns; r_ec := range_ec t (pn_mantissa pns) am; r_value := Some v |}
      end
  end.

Lemma from_start_tail c t o p r : from_start c t o p = Ok r -> tail_of p (r_ptr r).
Proof.
  unfold from_start. destruct p as [|ch p]; [intros E; injection E as <-; apply tail_refl|]. cbv zeta. set (s := ch :: p).
  assert (SL : parse_number_slow_path c U t s o (json (rules_of c o)) = Ok r -> tail_of s (r_ptr r)).
  { unfold parse_number_slow_path. destruct (parse_number_string c U _ s o true) as [pns|] eqn:P; cbn [bind]; [|discriminate].
    apply parse_tail_of in P. intros E. rewrite (pns_ptr _ _ _ _ E). exact P. }
  destruct (parse_number_string c U _ s o false) as [pns|] eqn:P; cbn [bind]; [|discriminate]. apply parse_tail_of in P.
  destruct (negb (pn_valid pns)).
  { destruct (flag _ f_no_infnan); [intros E; injection E as <-; apply tail_refl|apply infnan_tail]. }
  destruct (pn_too_many_digits pns); [exact SL|].
  destruct (clinger_fast_path_impl c t _ _ _) as [[v|]|]; cbn [bind]; [intros E; injection E as <-; exact P| |discriminate].
  destruct (compute_float c t _ _) as [am|]; cbn [bind]; [|discriminate]. destruct (am_power2 am <? 0); [exact SL|].
  destruct (to_float t _ am) as [v|]; cbn [bind]; [intros E; injection E as <-; exact P|discriminate].
Qed.

Lemma from_start_small z c t o p : code_unit U z -> too_small z = false -> neutral z ->
  Forall (code_unit U) p -> Z.of_nat (length p) <= 2 ^ 59 -> o_decimal_point o <> z ->
  (ends_at_small (rules_of c o) p -> from_start c t o p = UB) /\
  (~ ends_at_small (rules_of c o) p -> from_start c t o (harmless z p) = (let* r := from_start c t o p in Ok (moved z r))).
Proof.
  intros ZC ZB ZN C LEN DZ. destruct p as [|ch p].
  { split; [|reflexivity]. intros (x & r & D & _). exfalso. inversion D; subst.
    - inversion H; subst. destruct H0 as (E & _). destruct ip; discriminate E.
    - inversion H; subst. destruct H0 as (E & _). destruct ip; discriminate E.
    - inversion H; subst. destruct H0 as (E & _). destruct ip; [|discriminate E]. cbn in E. subst s2.
      inversion H1; subst. inversion H3. }
  set (s := ch :: p) in *. assert (NE : s <> []) by discriminate.
  destruct (parse_small z ZC ZB ZN c o s false C NE LEN DZ) as [(A & E)|(A & E)];
  destruct (parse_small z ZC ZB ZN c o s true C NE LEN DZ) as [(A' & E')|(A' & E')]; try contradiction.
  { split; [intros _|contradiction]. unfold from_start, s. fold s. cbv zeta. rewrite E. reflexivity. }
  split; [contradiction|intros _].
  assert (SL : parse_number_slow_path c U t (harmless z s) o (json (rules_of c o)) =
    (let* r := parse_number_slow_path c U t s o (json (rules_of c o)) in Ok (moved z r))).
  { unfold parse_number_slow_path. rewrite E'. destruct (parse_number_string c U _ s o true) as [pns|]; [|reflexivity]. cbn [bind]. apply pns_h; assumption. }
  unfold from_start, s. cbn [harmless map]. fold (harmless z p). change (harmless_char z ch :: harmless z p) with (harmless z s). fold s. cbv zeta.
  rewrite E. destruct (parse_number_string c U _ s o false) as [pns|]; [|reflexivity]. cbn [bind].
  cbn [relocated pn_valid pn_too_many_digits pn_mantissa pn_exponent pn_negative pn_lastmatch].
  destruct (negb (pn_valid pns)).
  { destruct (flag _ f_no_infnan); [reflexivity|]. apply infnan_h; assumption. }
  destruct (pn_too_many_digits pns); [exact SL|].
  destruct (clinger_fast_path_impl c t _ _ _) as [[v|]|]; cbn [bind]; try reflexivity.
  destruct (compute_float c t _ _) as [am|]; cbn [bind]; [|reflexivity]. destruct (am_power2 am <? 0); [exact SL|].
  destruct (to_float t _ am) as [v|]; reflexivity.
Qed.

Lemma from_chars_start c t o ws s0 :
  (if skips_space c o then Forall (fun ch => taken_for_space ch = true) ws /\ not_at (fun ch => taken_for_space ch = true) s0 else ws = []) ->
  from_chars_float_advanced c U t (ws ++ s0) o = from_start c t o s0.
Proof.
  intros H. unfold from_chars_float_advanced, from_start. cbv zeta.
  destruct (flag_adjust c o) as (_ & J & _ & _ & _ & W & _). rewrite J, W. clear J W.
  destruct (skips_space c o).
  - destruct H as (F & N). rewrite (skip_ws_taken ws s0 F N). reflexivity.
  - subst ws. reflexivity.
Qed.

(** *** C83 *)
Theorem from_chars_wchar_exact :
  forall (c : cfg) (t : ftype) (o : options) (ws s0 : list Z) (z : Z),
  Forall (code_unit Wchar_s32) s0 -> Z.of_nat (length s0) <= 2 ^ 59 ->
  (if skips_space c o then Forall (fun ch => taken_for_space ch = true) ws /\ not_at (fun ch => taken_for_space ch = true) s0
   else ws = []) ->
  code_unit Wchar_s32 z -> too_small z = false -> neutral z -> taken_for_space z = false -> z <> o_decimal_point o ->
  (ends_at_small (rules_of c o) s0 <-> from_chars_float_advanced c Wchar_s32 t (ws ++ s0) o = UB) /\
  (~ ends_at_small (rules_of c o) s0 ->
     exists consumed rest ec v, s0 = consumed ++ rest /\
       from_chars_float_advanced c Wchar_s32 t (ws ++ s0) o = Ok {| r_ptr := rest; r_ec := ec; r_value := v |} /\
       from_chars_float_advanced c Wchar_s32 t (harmless z s0) o = Ok {| r_ptr := harmless z rest; r_ec := ec; r_value := v |}).
Proof.
  intros c t o ws s0 z C LEN W ZC ZB ZN ZS DZ.
  assert (W' : if skips_space c o then Forall (fun ch => taken_for_space ch = true) [] /\ not_at (fun ch => taken_for_space ch = true) (harmless z s0) else @nil Z = []).
  { destruct (skips_space c o); [|reflexivity]. split; [constructor|]. destruct W as (_ & N). destruct s0 as [|ch s0]; [exact I|].
    cbn [harmless map not_at] in *. unfold harmless_char. destruct (too_small ch); [congruence|exact N]. }
  pose proof (from_chars_start c t o [] (harmless z s0) W') as E'. cbn [app] in E'.
  rewrite (from_chars_start c t o ws s0 W), E'.
  destruct (from_start_small z c t o s0 ZC ZB ZN C LEN ltac:(congruence)) as (A & B).
  assert (G : ~ ends_at_small (rules_of c o) s0 -> exists consumed rest ec v, s0 = consumed ++ rest /\
       from_start c t o s0 = Ok {| r_ptr := rest; r_ec := ec; r_value := v |} /\
       from_start c t o (harmless z s0) = Ok {| r_ptr := harmless z rest; r_ec := ec; r_value := v |}).
  { intros NE. specialize (B NE). destruct (float_total c U t o (harmless z s0) (harmless_okc z ZC ZB s0 C)) as (r' & E & _).
    { unfold harmless. rewrite map_length. exact LEN. }
    rewrite E', B in E. destruct (from_start c t o s0) as [r|] eqn:ER; cbn [bind] in E; [|discriminate E].
    apply from_start_tail in ER as T. destruct T as (p & T). destruct r as [ptr ec v]. cbn [r_ptr] in T.
    exists p, ptr, ec, v. split; [exact T|]. split; [reflexivity|]. rewrite B. reflexivity. }
  split; [|exact G]. split; [exact A|]. intros UBE.
  (* decided by the parse *)
  destruct s0 as [|ch s0].
  { discriminate UBE. }
  destruct (parse_small z ZC ZB ZN c o (ch :: s0) false C ltac:(discriminate) LEN ltac:(congruence)) as [(A' & _)|(A' & _)]; [exact A'|].
  exfalso. destruct (G A') as (? & ? & ? & ? & _ & E & _). congruence.
Qed.
Print Assumptions from_chars_wchar_exact.

(** The hypotheses are met, on both sides: "1.5e" and "-" followed by INT_MIN are undefined with the
    fixed notation allowed; "1.5x" and "inf" followed by it are not, and behind skipped white space,
    to which INT_MIN + 32 belongs, neither. *)
Example wchar_exact_example :
  let o := {| o_format := 256 + 5; o_decimal_point := 46; o_base := 10 |} in
  let m := - 2 ^ 31 in
  let R := rules_of cfg_x86_64 o in
  code_unit Wchar_s32 36 /\ too_small 36 = false /\ neutral 36 /\ taken_for_space 36 = false /\
  skips_space cfg_x86_64 o = true /\ taken_for_space (m + 32) = true /\
  ends_at_small R [49; 46; 53; 101; m] /\ ends_at_small R [45; m] /\
  from_chars_float_advanced cfg_x86_64 Wchar_s32 F64 [m + 32; 49; 46; 53; 101; m] o = UB /\
  ~ ends_at_small R [49; 46; 53; 120; m] /\
  from_chars_float_advanced cfg_x86_64 Wchar_s32 F64 [m + 32; 49; 46; 53; 120; m] o =
    Ok {| r_ptr := [120; m]; r_ec := Success; r_value := Some 4609434218613702656 |} /\
  harmless 36 [49; 46; 53; 120; m] = [49; 46; 53; 120; 36].
Proof.
  cbv zeta. set (o := {| o_format := 256 + 5; o_decimal_point := 46; o_base := 10 |}).
  assert (C : forall l, Forall (fun x => x = - 2 ^ 31 \/ 0 <= x < 128) l -> Forall (code_unit Wchar_s32) l).
  { intros l H. eapply Forall_impl; [|exact H]. intros a [->|A]; split; cbn; lia. }
  assert (NZ : neutral 36) by (split; [reflexivity|split; [reflexivity|cbn; intuition lia]]).
  assert (CZ : code_unit Wchar_s32 36) by (split; cbn; lia).
  assert (D : forall s, Forall (fun x => x = - 2 ^ 31 \/ 0 <= x < 128) s -> (length s <= 10)%nat ->
     not_at (fun ch => taken_for_space ch = true) s ->
     (ends_at_small (rules_of cfg_x86_64 o) s <-> from_chars_float_advanced cfg_x86_64 Wchar_s32 F64 s o = UB)).
  { intros s F L N. refine (proj1 (from_chars_wchar_exact cfg_x86_64 F64 o [] s 36 (C _ F) _ _ CZ eq_refl NZ eq_refl _)).
    - lia.
    - change (skips_space cfg_x86_64 o) with true. split; [constructor|exact N].
    - discriminate. }
  split; [exact CZ|]. split; [reflexivity|]. split; [exact NZ|]. split; [reflexivity|]. split; [reflexivity|]. split; [reflexivity|].
  split; [apply D; [repeat constructor; lia|cbn; lia|cbn; discriminate|vm_compute; reflexivity]|].
  split; [apply D; [repeat constructor; lia|cbn; lia|cbn; discriminate|vm_compute; reflexivity]|].
  split; [vm_compute; reflexivity|].
  split; [rewrite D; [vm_compute; discriminate|repeat constructor; lia|cbn; lia|cbn; discriminate]|].
  split; vm_compute; reflexivity.
Qed.
