(** Property C63: the search for the largest number in benchmarks/benchmark.cpp
    returns the number nearest to the largest value, and throws exactly when a
    text is rejected. *)
From Verif Require Import Machine Config Chars Format ParseNumber DecToBin FromChars Bench WordLemmas
  Rounding ComputeFloat SpecFloat FloatBridge Pow10 SpecGrammar SpecApi SpecRel Scan ParseSpec Special
  SlowPath ManyDigits Saturate FloatMaster FloatApi FloatRel Props_Pow10 Props_Float Props_Relations Props_Texts.
From Coq Require Import QArith Qabs Qminmax Lqa.
Open Scope Z_scope.

(** *** The comparison of bit patterns *)
Lemma sign_room t : 0 < infinity (format_of t) < 2 ^ sign_index t.
Proof. destruct t; vm_compute; split; reflexivity. Qed.

Lemma infinity_eq t : infinity_bits t = infinity (format_of t).
Proof. destruct t; reflexivity. Qed.

Lemma greater_spec t n a m b : 0 <= a <= infinity (format_of t) -> 0 <= b <= infinity (format_of t) ->
  fp_greater t (with_sign (format_of t) n a) (with_sign (format_of t) m b) =
  ((if m then - b else b) <? (if n then - a else a)).
Proof.
  intros A B. pose proof (sign_room t) as S. unfold fp_greater. rewrite !with_sign_eq, infinity_eq.
  set (s := 2 ^ sign_index t) in *. set (i := infinity (format_of t)) in *.
  assert (MOD : forall (n : bool) (a : Z), 0 <= a <= i -> (a + (if n then s else 0)) mod s = a).
  { clear - S. intros n a H. destruct n; [rewrite <- (Z.mul_1_l s) at 1; rewrite Z.mod_add by lia|rewrite Z.add_0_r]; apply Z.mod_small; lia. }
  rewrite !MOD by assumption.
  replace (i <? a) with false by (symmetry; apply Z.ltb_ge; lia).
  replace (i <? b) with false by (symmetry; apply Z.ltb_ge; lia). cbn [negb andb].
  assert (KEY : forall (n : bool) (a : Z), 0 <= a <= i -> (if s <=? a + (if n then s else 0) then - (a + (if n then s else 0) - s) else a + (if n then s else 0)) = (if n then - a else a)).
  { clear - S. intros n a H. destruct n.
    - replace (s <=? a + s) with true by (symmetry; apply Z.leb_le; lia). lia.
    - replace (s <=? a + 0) with false by (symmetry; apply Z.leb_gt; lia). lia. }
  rewrite !KEY by assumption. reflexivity.
Qed.

Lemma nearest_even_mono t x y a b : (x <= y)%Q ->
  nearest_even (format_of t) x a -> nearest_even (format_of t) y b -> a <= b.
Proof.
  intros L NA NB. destruct (Qle_lt_or_eq _ _ L) as [LT|EQ].
  - destruct (Z_le_gt_dec a b) as [G|G]; [exact G|exfalso].
    destruct NA as (RA & HA). destruct NB as (RB & HB).
    pose proof (magnitude_lt t b a ltac:(lia)) as M.
    assert (C1 : (magnitude (format_of t) b + magnitude (format_of t) a <= 2 * x)%Q).
    { apply closer_high; [exact M|]. destruct (HA b RB) as [H|(H & _)]; [apply Qlt_le_weak; exact H|rewrite H; apply Qle_refl]. }
    assert (C2 : (2 * y <= magnitude (format_of t) b + magnitude (format_of t) a)%Q).
    { apply closer_low; [exact M|]. destruct (HB a RA) as [H|(H & _)]; [apply Qlt_le_weak; exact H|rewrite H; apply Qle_refl]. }
    lra.
  - assert (a = b); [|lia]. apply (nearest_even_unique t y); [|exact NB].
    destruct NA as (RA & HA). split; [exact RA|]. intros b' R. rewrite <- EQ. apply HA. exact R.
Qed.

Lemma nearest_even_comp f x y b : (x == y)%Q -> nearest_even f x b -> nearest_even f y b.
Proof. intros E (R & H). split; [exact R|]. intros b' R'. rewrite <- E. apply H. exact R'. Qed.

(** *** One text *)
(** [st] starts with a number (in the default format) whose value is [q]. *)
Definition text_value (c : cfg) (u : uc) (st : list Z) (q : Q) : Prop :=
  exists st0 neg ip fp e rest,
    good_text c u general st /\ starts_at c general st st0 /\
    number (rules_of c general) st0 neg ip fp e rest /\ exponent_bounded st e /\
    q = signed_value neg (number_value ip fp e).

(** The largest of the values, or zero. *)
Definition largest (qs : list Q) : Q := fold_right Qmax 0%Q qs.

Lemma starts_at_suffix c o s s0 : starts_at c o s s0 -> exists sp, s = sp ++ s0.
Proof.
  unfold starts_at. destruct (skips_space c o); [|intros ->; exists []; reflexivity].
  intros (ws & -> & _). exists ws. reflexivity.
Qed.

Lemma moves c o s s0 rest : starts_at c o s s0 -> (exists p, s0 = p ++ rest /\ p <> []) ->
  (remaining rest =? remaining s) = false.
Proof.
  intros SA (p & -> & NE). destruct (starts_at_suffix _ _ _ _ SA) as (w & ->). apply Z.eqb_neq.
  unfold remaining. rewrite !app_length. destruct p; [congruence|]. cbn [length]. lia.
Qed.

Lemma text_call c u t st q : t <> F16 -> text_value c u st q -> exists neg b r,
  from_chars_float c u t st f_general = Ok r /\ r_value r = Some (with_sign (format_of t) neg b) /\
  (remaining (r_ptr r) =? remaining st) = false /\
  nearest_even (format_of t) (Qabs q) b /\ (if neg then q <= 0 else 0 <= q)%Q.
Proof.
  intros NT (st0 & neg & ip & fp & e & rest & G & SA & N & EB & ->).
  destruct (from_chars_correctly_rounded c u t general st st0 neg ip fp e rest NT G SA N EB) as (b & x & E & NE).
  eexists neg, b, _. split; [exact E|]. split; [reflexivity|]. cbn [r_ptr r_value].
  split; [apply (moves c general st st0); [exact SA|exact (number_consumes _ _ _ _ _ _ _ N)]|].
  assert (P : (0 <= number_value ip fp e)%Q) by (eapply number_value_nonneg; exact N).
  unfold signed_value. destruct neg.
  - split; [|lra]. apply (nearest_even_comp _ (number_value ip fp e)); [rewrite Qabs_opp, Qabs_pos by exact P; reflexivity|exact NE].
  - split; [|exact P]. apply (nearest_even_comp _ (number_value ip fp e)); [rewrite Qabs_pos by exact P; reflexivity|exact NE].
Qed.

(** C63: for every list of texts that start with numbers, the function returns
    the floating-point number nearest to the largest of their values and zero. *)
Theorem findmax_correct :
  forall (c : cfg) (u : uc) (t : ftype) (texts : list (list Z)) (qs : list Q),
  t <> F16 -> Forall2 (text_value c u) texts qs ->
  exists neg b,
    findmax_fastfloat c u t texts = Ok (Some (with_sign (format_of t) neg b)) /\
    nearest_even (format_of t) (largest qs) b /\ (neg = true -> b = 0).
Proof.
  intros c u t texts qs NT F. unfold findmax_fastfloat.
  enough (H : forall A n a x, (0 <= A)%Q -> nearest_even (format_of t) A a -> (n = true -> a = 0) ->
    exists neg b, findmax c u t texts (with_sign (format_of t) n a) x = Ok (Some (with_sign (format_of t) neg b)) /\
      nearest_even (format_of t) (Qmax A (largest qs)) b /\ (neg = true -> b = 0)).
  { destruct (H 0%Q false 0 0 ltac:(lra)) as (neg & b & E & NE & Z0).
    - split; [pose proof (sign_room t); lia|]. intros b' R.
      assert (M : (magnitude (format_of t) 0 == 0)%Q) by (destruct t; reflexivity).
      destruct (Z.eq_dec b' 0) as [->|N]; [right; split; [reflexivity|auto]|left].
      pose proof (magnitude_lt t 0 b' ltac:(lia)) as L. rewrite M in *.
      rewrite (Qabs_neg (0 - magnitude (format_of t) b')) by lra. rewrite Qabs_pos by lra. lra.
    - discriminate.
    - exists neg, b. split; [exact E|]. split; [|exact Z0]. eapply nearest_even_comp; [|exact NE].
      rewrite Q.max_r; [reflexivity|]. clear. induction qs as [|q qs IH]; [apply Qle_refl|].
      cbn [largest fold_right]. eapply Qle_trans; [exact IH|apply Q.le_max_r]. }
  induction F as [|st q texts qs TV F IH]; intros A n a x PA NA Z0.
  - exists n, a. split; [reflexivity|]. split; [|exact Z0]. eapply nearest_even_comp; [|exact NA].
    cbn. rewrite Q.max_l; [reflexivity|exact PA].
  - cbn [findmax]. destruct (text_call c u t st q NT TV) as (m & b & r & E & V & MV & NB & SG).
    rewrite E. cbn [bind]. rewrite MV, V.
    rewrite greater_spec by (first [apply NA|apply NB]).
    cbn [largest fold_right]. fold (largest qs).
    assert (ASSOC : (Qmax (Qmax A q) (largest qs) == Qmax A (Qmax q (largest qs)))%Q) by (symmetry; apply Q.max_assoc).
    enough (H : exists n' a', (if (if m then - b else b) <? (if n then - a else a) then with_sign (format_of t) n a else with_sign (format_of t) m b)
        = with_sign (format_of t) n' a' /\ nearest_even (format_of t) (Qmax A q) a' /\ (n' = true -> a' = 0)).
    { destruct H as (n' & a' & -> & NA' & Z').
      destruct (IH (Qmax A q) n' a' (with_sign (format_of t) m b)) as (neg & b' & E' & NE' & Z''); [|exact NA'|exact Z'|].
      - eapply Qle_trans; [exact PA|apply Q.le_max_l].
      - exists neg, b'. split; [exact E'|]. split; [|exact Z'']. eapply nearest_even_comp; [exact ASSOC|exact NE']. }
    assert (RA : 0 <= a) by apply NA. assert (RB : 0 <= b) by apply NB.
    assert (KA : (if n then - a else a) = a) by (destruct n; [rewrite Z0 by reflexivity; reflexivity|reflexivity]).
    rewrite KA. destruct m.
    + assert (MX : (Qmax A q == A)%Q) by (apply Q.max_l; lra).
      destruct (Z.ltb_spec (- b) a) as [L|L].
      * exists n, a. split; [reflexivity|]. split; [|exact Z0]. eapply nearest_even_comp; [symmetry; exact MX|exact NA].
      * assert (a = 0) by lia. assert (b = 0) by lia. subst a b. exists true, 0. split; [reflexivity|]. split; [|reflexivity].
        eapply nearest_even_comp; [symmetry; exact MX|exact NA].
    + assert (NB' : nearest_even (format_of t) q b) by (eapply nearest_even_comp; [apply Qabs_pos; exact SG|exact NB]).
      destruct (Z.ltb_spec b a) as [L|L].
      * exists n, a. split; [reflexivity|]. split; [|exact Z0].
        eapply nearest_even_comp; [symmetry; apply Q.max_l|exact NA].
        destruct (Qlt_le_dec A q) as [LT|LE]; [|exact LE]. pose proof (nearest_even_mono t A q a b (Qlt_le_weak _ _ LT) NA NB'). lia.
      * exists false, b. split; [reflexivity|]. split; [|discriminate].
        destruct (Qlt_le_dec A q) as [LT|LE].
        -- eapply nearest_even_comp; [symmetry; apply Q.max_r; apply Qlt_le_weak; exact LT|exact NB'].
        -- pose proof (nearest_even_mono t q A b a LE NB' NA). assert (b = a) by lia. subst b.
           eapply nearest_even_comp; [symmetry; apply Q.max_l; exact LE|exact NA].
Qed.
Print Assumptions findmax_correct.

(** [st] is rejected: it starts neither with a number nor with a spelling of
    infinity or NaN. *)
Definition rejected (c : cfg) (st : list Z) : Prop :=
  (forall neg ip fp e rest, ~ number (rules_of c general) st neg ip fp e rest) /\
  (forall neg k rest, ~ special (leading_plus (rules_of c general)) st neg k rest).

(** C63: the exception is thrown exactly when one of the texts is rejected (in
    builds that do not skip white space; any of the four types). *)
Theorem findmax_throws :
  forall (c : cfg) (u : uc) (t : ftype) (texts : list (list Z)),
  macro_skip_ws c = false -> Forall (good_text c u general) texts ->
  (Exists (rejected c) texts /\ findmax_fastfloat c u t texts = Ok None) \/
  (~ Exists (rejected c) texts /\ exists v, findmax_fastfloat c u t texts = Ok (Some v)).
Proof.
  intros c u t texts MS F. unfold findmax_fastfloat. generalize 0 at 1 3. generalize 0.
  induction F as [|st texts G F IH]; intros x answer.
  - right. split; [intros H; inversion H|]. exists answer. reflexivity.
  - cbn [findmax].
    assert (SA : starts_at c general st st) by (unfold starts_at, skips_space; rewrite MS; reflexivity).
    change (from_chars_float c u t st f_general) with (from_chars_float_advanced c u t st general).
    assert (OK : (rejected c st /\ exists v, from_chars_float_advanced c u t st general = Ok {| r_ptr := st; r_ec := InvalidArgument; r_value := v |}) \/
      (~ rejected c st /\ exists r, from_chars_float_advanced c u t st general = Ok r /\ (remaining (r_ptr r) =? remaining st) = false)).
    { destruct (number_or_not c u general st st G SA) as [(neg & ip & fp & e & rest & N)|NN].
      - right. split; [intros (NO & _); exact (NO _ _ _ _ _ N)|].
        destruct (float_same c t ip fp e general u _ _ _ _ general u _ _ _ _ G SA N G SA N) as (b & y & _ & E & _).
        eexists. split; [exact E|]. apply (moves c general st st); [exact SA|exact (number_consumes _ _ _ _ _ _ _ N)].
      - destruct (other_main c u t general st st G SA NN) as [(AS & _)|[(_ & NS & E)|(neg & k & rest & _ & SP & E)]].
        + discriminate AS.
        + left. split; [split; assumption|]. eexists. exact E.
        + right. split; [intros (_ & NO); exact (NO _ _ _ SP)|]. eexists. split; [exact E|].
          apply (moves c general st st); [exact SA|exact (special_consumes _ _ _ _ _ SP)]. }
    destruct OK as [(RJ & v & E)|(NR & r & E & MV)]; rewrite E; cbn [bind r_ptr].
    + rewrite Z.eqb_refl. left. split; [left; exact RJ|reflexivity].
    + rewrite MV. set (x' := match r_value r with Some v => v | None => x end).
      destruct (IH x' (if fp_greater t answer x' then answer else x')) as [(EX & H)|(NE & H)].
      * left. split; [right; exact EX|exact H].
      * right. split; [|exact H]. intros EX. inversion EX as [? ? RJ|? ? EX']; subst; [exact (NR RJ)|exact (NE EX')].
Qed.
Print Assumptions findmax_throws.

(** C63: the UTF-16 run of the benchmark gives what the ASCII run gives. *)
Theorem findmax_wide :
  forall (c : cfg) (u1 u2 : uc) (t : ftype) (texts : list (list Z)),
  Forall (fun st => Forall (fun ch => 0 <= ch < 128) st /\ Z.of_nat (length st) <= 2 ^ 59) texts ->
  findmax_fastfloat c u1 t texts = findmax_fastfloat c u2 t texts.
Proof.
  intros c u1 u2 t texts F. unfold findmax_fastfloat. generalize 0 at 2 4. generalize 0.
  induction F as [|st texts (A & L) F IH]; intros answer x; [reflexivity|]. cbn [findmax].
  change (from_chars_float c u1 t st f_general) with (from_chars_float_advanced c u1 t st general).
  change (from_chars_float c u2 t st f_general) with (from_chars_float_advanced c u2 t st general).
  destruct (from_chars_wide c u1 u2 t general st A L eq_refl) as (r & -> & ->). cbn [bind].
  destruct (remaining (r_ptr r) =? remaining st); [reflexivity|]. apply IH.
Qed.
Print Assumptions findmax_wide.

(** "-1", "2.5e1" and "7 x": the largest is 25; the values are -1, 25 and 7.  The
    text "x" makes the function throw; "-0" alone gives -0. *)
Example findmax_example :
  Forall2 (text_value cfg_x86_64 Char_s) [[45; 49]; [50; 46; 53; 101; 49]; [55; 32; 120]]
    [signed_value true (number_value [49] [] 0); signed_value false (number_value [50] [53] 1); signed_value false (number_value [55] [] 0)] /\
  findmax_fastfloat cfg_x86_64 Char_s F64 [[45; 49]; [50; 46; 53; 101; 49]; [55; 32; 120]] = Ok (Some 0x4039000000000000) /\
  Qeq (magnitude binary64 0x4039000000000000) 25 /\
  findmax_fastfloat cfg_x86_64 Char_s F64 [[55]; [120]] = Ok None /\ rejected cfg_x86_64 [120] /\
  findmax_fastfloat cfg_x86_64 Char_s F64 [[45; 48]] = Ok (Some (2 ^ 63)).
Proof.
  assert (ND : forall ch s s1, ch <> 101 /\ ch <> 69 -> ~ exp_mark (rules_of cfg_x86_64 general) (ch :: s) s1).
  { intros ch s s1 (A & B) H. inversion H; subst; [intuition|discriminate|discriminate]. }
  split; [|split; [vm_compute; reflexivity|split; [vm_compute; reflexivity|split; [vm_compute; reflexivity|split; [|vm_compute; reflexivity]]]]].
  - assert (G : forall s, Forall (fun ch => 0 <= ch < 128) s -> (length s < 100)%nat -> good_text cfg_x86_64 Char_s general s).
    { intros s A L. apply ascii_good; [exact A|lia|reflexivity]. }
    repeat constructor.
    + exists [45; 49], true, [49], [], 0, []. split; [apply G; [repeat constructor; lia|cbn; lia]|]. split; [reflexivity|].
      split; [|split; [left; cbn; lia|reflexivity]].
      exists [49], [], false, []. split; [constructor|]. split; [repeat split; repeat constructor|]. split; [constructor; exact I|].
      split; [discriminate|]. apply exponent_none; [intros s1 H; inversion H|right; reflexivity].
    + exists [50; 46; 53; 101; 49], false, [50], [53], 1, []. split; [apply G; [repeat constructor; lia|cbn; lia]|]. split; [reflexivity|].
      split; [|split; [left; cbn; lia|reflexivity]].
      exists [50; 46; 53; 101; 49], [46; 53; 101; 49], true, [101; 49]. split; [apply signed_none; cbn; intuition lia|].
      split; [repeat split; repeat constructor; discriminate|].
      split; [apply (fraction_some (rules_of cfg_x86_64 general)); repeat split; repeat constructor; discriminate|].
      split; [discriminate|].
      change 1 with (if false then - digits_value [49] else digits_value [49]).
      apply (exponent_some _ _ [49] false [49]); [apply mark_e; [reflexivity|auto]|apply exp_nosign; cbn; intuition lia|repeat split; repeat constructor|discriminate].
    + exists [55; 32; 120], false, [55], [], 0, [32; 120]. split; [apply G; [repeat constructor; lia|cbn; lia]|]. split; [reflexivity|].
      split; [|split; [left; cbn; lia|reflexivity]].
      exists [55; 32; 120], [32; 120], false, [32; 120]. split; [apply signed_none; cbn; intuition lia|].
      split; [repeat split; repeat constructor; discriminate|]. split; [apply fraction_none; cbn; discriminate|].
      split; [discriminate|]. apply exponent_none; [intros s1; apply ND; lia|right; reflexivity].
  - assert (SA : starts_at cfg_x86_64 general [120] [120]) by reflexivity.
    assert (G : good_text cfg_x86_64 Char_s general [120]) by (apply ascii_good; [repeat constructor; lia|cbn; lia|reflexivity]).
    destruct (from_chars_invalid_only cfg_x86_64 Char_s F64 general [120] [120]
      {| r_ptr := [120]; r_ec := InvalidArgument; r_value := None |} G SA ltac:(vm_compute; reflexivity) eq_refl) as (A & B & _).
    split; [exact A|exact (B eq_refl)].
Qed.
