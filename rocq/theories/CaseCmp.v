(** fastfloat_strncasecmp, the general case-insensitive comparison of
    float_common.h:399-436, and small result and option types. *)
From Verif Require Import Machine Config Chars Format ParseNumber FromChars Ints WordLemmas SpecGrammar SpecApi Scan ParseSpec Special.
Open Scope Z_scope.

(** The word loop, float_common.h:424-435: blocks of 8/sizeof(UC) units, the
    last one shorter.  [fuel] only makes the recursion structural. *)
Fixpoint strncasecmp_words (fuel : nat) (c : cfg) (u : uc) (p e : list Z) : res bool :=
  match e with
  | [] => Ok true
  | _ =>
    match fuel with
    | O => UB
    | S fuel =>
      let sz := Nat.min (Z.to_nat (8 / uc_size u)) (length e) in
      let* b := casecmp_word c u true p (firstn sz e) in
      if b then let* p := advance sz p in strncasecmp_words fuel c u p (skipn sz e) else Ok false
    end
  end.

(** fastfloat_strncasecmp, float_common.h:399-436; [e] is the expected word, whose
    length is the third argument. *)
Definition strncasecmp (c : cfg) (u : uc) (p e : list Z) : res bool :=
  if in_constexpr c then casecmp_const p e else strncasecmp_words (length e) c u p e.

(** from_chars_result_t::operator bool, float_common.h:63-66 *)
Definition result_ok (r : result) : bool := match r_ec r with Success => true | _ => false end.

(** The defaults of the parse_options_t constructor, float_common.h:72-74, and
    of the [fmt] and [base] arguments of from_chars (fast_float.h:24-58). *)
Definition default_options : options := {| o_format := 5; o_decimal_point := 46; o_base := 10 |}.

Lemma strncasecmp_words_spec c u : forall fuel e p,
  letters e -> (length e <= fuel)%nat -> Forall (code_unit u) p -> (length e <= length p)%nat ->
  exists b, strncasecmp_words fuel c u p e = Ok b /\ (b = true <-> map (lower u) (firstn (length e) p) = e).
Proof.
  induction fuel as [|fuel IH]; intros e p LE F OK LP.
  - destruct e; [|cbn in F; lia]. exists true. split; [reflexivity|]. cbn. tauto.
  - destruct e as [|e0 e']; [exists true; split; [reflexivity|]; cbn; tauto|].
    assert (F0 : (1 <= length (e0 :: e'))%nat) by (cbn; lia).
    cbn [strncasecmp_words]. set (e := e0 :: e') in *. clearbody e. clear e0 e'.
    set (sz := Nat.min (Z.to_nat (8 / uc_size u)) (length e)).
    assert (S1 : (1 <= sz <= length e)%nat).
    { subst sz. assert (1 <= Z.to_nat (8 / uc_size u))%nat by (destruct u; cbn; lia). lia. }
    assert (LF : length (firstn sz e) = sz) by (rewrite firstn_length; lia).
    assert (LE1 : letters (firstn sz e) /\ letters (skipn sz e)).
    { unfold letters in *. rewrite <- (firstn_skipn sz e) in LE. apply Forall_app in LE. exact LE. }
    destruct LE1 as [LE1 LE2].
    destruct (casecmp_word_spec c u true p (firstn sz e)) as (b & EB & HB);
      [exact LE1|lia|rewrite LF; subst sz; lia|discriminate|]. rewrite EB. cbn [bind]. rewrite LF in HB.
    assert (SP : firstn (length e) p = firstn sz p ++ firstn (length e - sz) (skipn sz p)).
    { rewrite firstn_skipn_comm. replace (sz + (length e - sz))%nat with (length e) by lia.
      rewrite <- (firstn_skipn sz (firstn (length e) p)) at 1. rewrite firstn_firstn. f_equal. f_equal. lia. }
    assert (LFP : length (map (lower u) (firstn sz p)) = sz) by (rewrite map_length, firstn_length; lia).
    destruct b.
    + rewrite advance_Ok by lia. cbn [bind].
      destruct (IH (skipn sz e) (skipn sz p)) as (b & EB2 & HB2);
        [exact LE2|rewrite skipn_length; lia|rewrite <- (firstn_skipn sz p) in OK; apply Forall_app in OK; apply OK|rewrite !skipn_length; lia|].
      exists b. split; [exact EB2|]. rewrite skipn_length in HB2. rewrite HB2, SP, map_app.
      destruct HB as [HB _]. specialize (HB eq_refl). rewrite HB. split.
      * intros ->. apply firstn_skipn.
      * intros E. apply app_inv_head with (firstn sz e). rewrite E. symmetry. apply firstn_skipn.
    + exists false. split; [reflexivity|]. split; [discriminate|]. intros E. apply HB.
      apply (f_equal (firstn sz)) in E. rewrite SP, map_app, firstn_app, LFP, Nat.sub_diag in E.
      cbn [firstn] in E. rewrite app_nil_r, firstn_all2 in E by lia. exact E.
Qed.

Lemma code_unit_mod u x : code_unit u x ->
  0 <= x mod 2 ^ uc_bits u < 2 ^ uc_bits u /\ (x mod 2 ^ uc_bits u = x \/ (x < 0 /\ 128 <= x mod 2 ^ uc_bits u)).
Proof.
  intros H. assert (P : 0 < 2 ^ uc_bits u) by (destruct u; cbn; lia).
  split; [apply Z.mod_pos_bound; exact P|].
  assert (B : uc_min u = 0 /\ uc_max u = 2 ^ uc_bits u - 1 \/
              uc_min u = - 2 ^ (uc_bits u - 1) /\ uc_max u = 2 ^ (uc_bits u - 1) - 1).
  { destruct u; ((left; split; reflexivity) || (right; split; reflexivity)). }
  assert (P2 : 2 ^ uc_bits u = 2 * 2 ^ (uc_bits u - 1)).
  { rewrite <- Z.pow_succ_r by (destruct u; cbn; lia). f_equal. lia. }
  assert (P3 : 128 <= 2 ^ (uc_bits u - 1)) by (destruct u; vm_compute; discriminate).
  unfold code_unit in H. set (N := 2 ^ uc_bits u) in *. set (N2 := 2 ^ (uc_bits u - 1)) in *. clearbody N N2.
  destruct (Z_lt_le_dec x 0) as [L|L]; [right|left].
  - split; [exact L|]. rewrite <- (Z.mod_add x 1 N) by lia. rewrite Z.mod_small; lia.
  - apply Z.mod_small. lia.
Qed.

Lemma lower_unit u x e : code_unit u x -> 97 <= e <= 122 -> (lower u x = e <-> x = e \/ x = e - 32).
Proof.
  intros H He. destruct (code_unit_mod u x H) as [R C]. unfold lower. rewrite lor32_letter by lia.
  destruct C as [->|[C1 C2]]; [reflexivity|]. lia.
Qed.

Lemma lor_unit u x e : code_unit u x -> 97 <= e <= 122 -> (Z.lor x 32 = e <-> x = e \/ x = e - 32).
Proof.
  intros H He. destruct (Z_lt_le_dec x 0) as [L|L]; [|apply lor32_letter; lia].
  split; [|lia]. intros E. assert (Z.lor x 32 < 0) by (apply Z.lor_neg; lia). lia.
Qed.

Lemma letters_unit u : forall e p, letters e -> Forall (code_unit u) p -> (length e <= length p)%nat ->
  (map (lower u) (firstn (length e) p) = e <-> exists rest, same_letters e p rest).
Proof.
  induction e as [|a e IH]; intros p LE OK LP.
  - cbn. split; [intros _; exists p; constructor|reflexivity].
  - destruct p as [|x p]; [cbn in LP; lia|]. inversion LE as [|? ? HA HE]; subst. inversion OK as [|? ? HX HP]; subst.
    cbn [length] in LP. specialize (IH p HE HP ltac:(lia)). cbn [length firstn map]. split.
    + intros E. pose proof (f_equal (hd 0) E) as E1. pose proof (f_equal (@tl Z) E) as E2. cbn [hd tl] in E1, E2.
      apply IH in E2. destruct E2 as (rest & S). exists rest. constructor; [apply (lower_unit u); assumption|exact S].
    + intros (rest & S). inversion S; subst. f_equal; [apply lower_unit; assumption|]. apply IH. exists rest. assumption.
Qed.

Lemma casecmp_const_unit u : forall e p, letters e -> Forall (code_unit u) p -> (length e <= length p)%nat ->
  exists b, casecmp_const p e = Ok b /\ (b = true <-> exists rest, same_letters e p rest).
Proof.
  induction e as [|a e IH]; intros p LE OK LP.
  - exists true. split; [reflexivity|]. split; [intros _; exists p; constructor|reflexivity].
  - destruct p as [|x p]; [cbn in LP; lia|]. inversion LE as [|? ? HA HE]; subst. inversion OK as [|? ? HX HP]; subst.
    cbn [length] in LP. destruct (IH p HE HP ltac:(lia)) as (b & EB & HB). cbn [casecmp_const deref bind tl].
    destruct (Z.eqb_spec (Z.lor x 32) a) as [E|N].
    + exists b. split; [exact EB|]. rewrite HB. apply (lor_unit u) in E; [|assumption|lia]. split.
      * intros (rest & S). exists rest. constructor; assumption.
      * intros (rest & S). inversion S; subst. exists rest. assumption.
    + exists false. split; [reflexivity|]. split; [discriminate|]. intros (rest & S). inversion S; subst.
      exfalso. apply N. apply (lor_unit u); [assumption|lia|assumption].
Qed.

(** C45: for a lower-case word, any length, the comparison says exactly whether
    the text starts with the word in any mixture of cases, never reads past
    the word's length, and does so in every build and for every character type. *)
Theorem strncasecmp_correct :
  forall c u p e,
  Forall (fun x => 97 <= x <= 122) e -> Forall (code_unit u) p -> (length e <= length p)%nat ->
  exists b, strncasecmp c u p e = Ok b /\ (b = true <-> exists rest, same_letters e p rest).
Proof.
  intros c u p e LE OK LP. unfold strncasecmp. destruct (in_constexpr c).
  - apply (casecmp_const_unit u); assumption.
  - destruct (strncasecmp_words_spec c u (length e) e p LE (le_n _) OK LP) as (b & EB & HB).
    exists b. split; [exact EB|]. rewrite HB. apply letters_unit; assumption.
Qed.
Print Assumptions strncasecmp_correct.

(** The two words of the library itself, compared by their specialised versions. *)
Theorem strncasecmp_specialised :
  forall c u p, Forall (okc u) p ->
  ((3 <= length p)%nat -> strncasecmp3 c u p str_const_nan = strncasecmp c u p str_const_nan /\
                          strncasecmp3 c u p str_const_inf = strncasecmp c u p word_inf) /\
  ((5 <= length p)%nat -> strncasecmp5 c u p word_inity = strncasecmp c u p word_inity).
Proof.
  intros c u p OK.
  assert (CU : Forall (code_unit u) p) by (eapply Forall_impl; [|exact OK]; intros x Hx; apply Hx).
  assert (BOOL : forall w n (r : res bool), letters w -> length w = n -> (n <= length p)%nat ->
    (exists b, r = Ok b /\ (b = true <-> map (lower u) (firstn n p) = w)) -> r = strncasecmp c u p w).
  { intros w n r LW <- LP (b & -> & HB).
    destruct (strncasecmp_correct c u p w LW CU LP) as (b' & -> & HB'). f_equal.
    rewrite <- (letters_unit u w p LW CU LP), <- HB in HB'. destruct b, b'; try reflexivity; destruct HB'; intuition congruence. }
  assert (LN : letters str_const_nan) by (repeat constructor; lia).
  assert (LI : letters word_inf) by (repeat constructor; lia).
  assert (LY : letters word_inity) by (repeat constructor; lia).
  split.
  - intros LP. split.
    + apply (BOOL str_const_nan 3%nat); [exact LN|reflexivity|exact LP|].
      apply (strncasecmp3_spec c u p str_const_nan []); try assumption; reflexivity.
    + apply (BOOL word_inf 3%nat); [exact LI|reflexivity|exact LP|].
      apply (strncasecmp3_spec c u p word_inf word_inity); try assumption; reflexivity.
  - intros LP. apply (BOOL word_inity 5%nat); [exact LY|reflexivity|exact LP|].
    apply strncasecmp5_spec; try assumption; reflexivity.
Qed.

(** Words with other characters are not covered, and builds then disagree: an
    underscore equals itself at run time but not in constant evaluation. *)
Theorem strncasecmp_other_words_refuted :
  ~ forall c c' p e, (length e <= length p)%nat -> strncasecmp c Char_s p e = strncasecmp c' Char_s p e.
Proof.
  intros H.
  specialize (H
    {| in_constexpr := true; big_endian := false; is_clang := false; is_32bit := false; sparc := false;
    int128 := true; clz_builtin := true; add_overflow_builtin := true; simd := NoSimd; eval := Eval0; half_in_float := false; rmode := ToNearest; flush := false;
    macro_leading_plus := false; macro_skip_ws := false; asserts := false |}
    {| in_constexpr := false; big_endian := false; is_clang := false; is_32bit := false; sparc := false;
    int128 := true; clz_builtin := true; add_overflow_builtin := true; simd := NoSimd; eval := Eval0; half_in_float := false; rmode := ToNearest; flush := false;
    macro_leading_plus := false; macro_skip_ws := false; asserts := false |} [95] [95] (le_n _)).
  vm_compute in H. discriminate H.
Qed.

(** A nine-letter word, longer than one machine word. *)
Lemma strncasecmp_example : forall c,
  strncasecmp c Char_s [70; 97; 83; 84; 102; 76; 111; 65; 116; 33] [102; 97; 115; 116; 102; 108; 111; 97; 116] = Ok true /\
  strncasecmp c Char_s [70; 97; 83; 84; 102; 76; 111; 65; 84 + 1; 33] [102; 97; 115; 116; 102; 108; 111; 97; 116] = Ok false.
Proof.
  intros [ic be x1 x2 x3 x4 x5 x6 x7 x8 x9 x10 x11]. destruct ic, be; split; vm_compute; reflexivity.
Qed.

(** ** Results and defaults *)
(** A result converts to true exactly when there is no error. *)
Theorem result_bool_correct : forall r, result_ok r = true <-> r_ec r = Success.
Proof. intros r. unfold result_ok. destruct (r_ec r); split; congruence. Qed.

(** Calling from_chars without the optional arguments is calling it with the
    general format and base 10, and is calling from_chars_advanced with
    default-constructed options, whose decimal point is '.'. *)
Theorem defaults_agree : forall c u t T p,
  from_chars_float c u t p f_general = from_chars_float_advanced c u t p default_options /\
  from_chars_int c u T p 10 = from_chars_int_advanced c u T p default_options /\
  o_decimal_point default_options = 46 /\ o_base default_options = 10 /\ o_format default_options = f_general.
Proof. intros. repeat split; reflexivity. Qed.

(** The named combinations of chars_format (float_common.h:49-56) select the
    rules their names promise; none of them allows a leading plus or skips
    white space unless the build macros force it. *)
Theorem presets_agree : forall c point base,
  let opts f := {| o_format := f; o_decimal_point := point; o_base := base |} in
  let selects f j fo := rules_of c (opts f) =
      {| leading_plus := macro_leading_plus c; json := j; scientific := true; fixed := true; fortran := fo;
         SpecGrammar.point := point |} /\ skips_space c (opts f) = macro_skip_ws c in
  (selects f_general false false /\ allows_special (opts f_general) = true) /\
  (selects f_json true false /\ allows_special (opts f_json) = false) /\
  (selects f_json_or_infnan true false /\ allows_special (opts f_json_or_infnan) = true) /\
  (selects f_fortran false true /\ allows_special (opts f_fortran) = true) /\
  o_format default_options = f_general.
Proof.
  intros c point base. cbv zeta. unfold rules_of, skips_space, allows_special. cbn [o_format o_decimal_point].
  repeat split; reflexivity.
Qed.
Print Assumptions presets_agree.
