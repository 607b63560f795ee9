(** Property C41: allowing more never changes what was accepted before. *)
From Verif Require Import Machine Config Chars Format ParseNumber DecToBin FromChars WordLemmas
  Rounding ComputeFloat SpecFloat FloatBridge Pow10 SpecGrammar SpecApi SpecRel SpecText Scan ParseSpec Special
  SlowPath ManyDigits Saturate FloatMaster FloatApi FloatRel TextSpec Props_Pow10 Props_Float Props_Relations Props_Texts.
From Coq Require Import QArith Qabs.
Open Scope Z_scope.

Section More.
Variables R R' : rules.
Hypothesis PT : point R' = point R.
Hypothesis NP : neutral (point R).
Hypothesis R1 : leading_plus R = true -> leading_plus R' = true.
Hypothesis R2 : json R' = true -> json R = true.
Hypothesis R3 : scientific R' = scientific R.
Hypothesis R4 : fixed R = true -> fixed R' = true.
Hypothesis R5 : fortran R' = fortran R.

Lemma more_number s neg ip fp e rest : number R s neg ip fp e rest -> number R' s neg ip fp e rest.
Proof using All.
  intros (s1 & s2 & hp & s3 & SG & RN & F & MO & EX). exists s1, s2, hp, s3.
  assert (NE : json R = false -> json R' = false) by (destruct (json R'); [intros H; rewrite R2 in H; auto|reflexivity]).
  split; [|split; [exact RN|split; [|split]]].
  - inversion SG as [|? P J|? N]; subst; [constructor|constructor; auto|]. constructor.
    destruct s1 as [|ch s1]; [exact I|]. cbn in N |- *. intros [->|(-> & P & J)]; [tauto|].
    (* a plus that is no sign for R *)
    destruct RN as (E & A & _). destruct ip as [|d ip].
    + cbn in E. subst s2. inversion F as [? ? ? _ E1|? _ E1]; subst.
      * destruct NP as (_ & _ & NI). rewrite E1 in NI. cbn in NI. tauto.
      * unfold mantissa_ok in MO. destruct (json R); [destruct MO as (MO & _)|]; apply MO; reflexivity.
    + injection E as <- _. inversion A as [|? ? D]. discriminate D.
  - inversion F as [? ? ? RF|? N]; subst; [rewrite <- PT; constructor; exact RF|constructor; rewrite PT; exact N].
  - unfold mantissa_ok in *. destruct (json R') eqn:J'; [rewrite (R2 eq_refl) in MO; exact MO|].
    destruct (json R); [|exact MO]. destruct MO as (MO & _). intros E. apply app_eq_nil in E. tauto.
  - assert (M1 : forall a b, exp_mark R a b -> exp_mark R' a b).
    { intros a b M. inversion M; subst; [apply mark_e|apply mark_d|apply mark_sign]; congruence || assumption. }
    assert (M2 : forall a b, exp_mark R' a b -> exp_mark R a b).
    { intros a b M. inversion M; subst; [apply mark_e|apply mark_d|apply mark_sign]; congruence || assumption. }
    inversion EX as [? x1 n x2 ds ? EM ES ER ND|? NM FF|? x1 n x2 EM ES N FF]; subst.
    + eapply exponent_some; [apply M1; exact EM|exact ES|exact ER|exact ND].
    + apply exponent_none; [intros x1 M; exact (NM _ (M2 _ _ M))|]. rewrite R3. destruct FF; auto.
    + eapply exponent_dangling; [apply M1; exact EM|exact ES|exact N|auto].
Qed.
End More.

Lemma more_special plus plus' s neg k rest : (plus = true -> plus' = true) -> special plus s neg k rest -> special plus' s neg k rest.
Proof.
  intros P.
  assert (SG : forall w a n b r, special_sign plus a n b -> same_letters w b r -> not_at (fun ch => ch = 43) w -> w <> [] -> not_at (fun ch => ch = 75) w ->
    special_sign plus' a n b).
  { intros w a n b r S L NW NE NK. inversion S as [|? PL|? N]; subst; [constructor|constructor; auto|]. constructor.
    destruct L as [|x w ch l r C L]; [congruence|]. cbn in N, NW, NK |- *. intros [->|(-> & _)]; [tauto|]. lia. }
  intros H. inversion H as [? ? s1 s2 ? SS SL PL|? ? s1 s2 ? SS SL SL2|? ? s1 ? SS SL NI]; subst.
  - eapply special_nan; [eapply SG; [exact SS|exact SL|..]; cbn; (lia || discriminate)|exact SL|exact PL].
  - eapply special_infinity; [eapply SG; [exact SS|exact SL|..]; cbn; (lia || discriminate)|exact SL|exact SL2].
  - eapply special_inf; [eapply SG; [exact SS|exact SL|..]; cbn; (lia || discriminate)|exact SL|exact NI].
Qed.

(** The first character of a number or special value is not white space. *)
Lemma number_first R s neg ip fp e rest : neutral (point R) -> number R s neg ip fp e rest -> not_at (fun ch => space ch = true) s.
Proof.
  intros NP (s1 & s2 & hp & s3 & SG & RN & F & MO & EX). destruct s as [|ch s]; [exact I|]. cbn. intros SP.
  assert (S1 : s1 = ch :: s).
  { inversion SG; subst; [discriminate SP|discriminate SP|reflexivity]. }
  subst s1. destruct RN as (E & A & _). destruct ip as [|d ip].
  - cbn in E. subst s2. inversion F as [? ? ? _ E1|? _ E1]; subst.
    + destruct NP as (_ & N & _). congruence.
    + unfold mantissa_ok in MO. destruct (json R); [destruct MO as (MO & _)|]; apply MO; reflexivity.
  - injection E as -> _. inversion A as [|? ? D]; subst. unfold digit in D. unfold space in SP. lia.
Qed.
Lemma special_first plus s neg k rest : special plus s neg k rest -> not_at (fun ch => space ch = true) s.
Proof.
  intros H.
  assert (SG : forall n b r w, special_sign plus s n b -> same_letters w b r -> In w [word_nan; word_inf] -> not_at (fun ch => space ch = true) s).
  { intros n b r w S L IW. inversion S; subst; [discriminate|discriminate|].
    destruct IW as [<-|[<-|[]]]; inversion L; subst; cbn; unfold space; lia. }
  inversion H as [? ? s1 s2 ? SS SL PL|? ? s1 s2 ? SS SL SL2|? ? s1 ? SS SL NI]; subst; eapply SG; try eassumption; cbn; tauto.
Qed.

Lemma starts_more c o o' s s0 : (skips_space c o = true -> skips_space c o' = true) -> starts_at c o s s0 ->
  not_at (fun ch => space ch = true) s0 -> starts_at c o' s s0.
Proof.
  intros SK SA N. unfold starts_at in *. destruct (skips_space c o); [rewrite SK by reflexivity; exact SA|].
  subst s0. destruct (skips_space c o'); [|reflexivity]. exists []. split; [reflexivity|]. split; [constructor|exact N].
Qed.

Theorem from_chars_permits_more :
  forall (c : cfg) (u : uc) (t : ftype) (o o' : options) (s rest : list Z) (x : ec) (v : option Z),
  permits_more o o' -> neutral (o_decimal_point o) -> good_text c u o' s ->
  from_chars_float_advanced c u t s o = Ok {| r_ptr := rest; r_ec := x; r_value := v |} -> x <> InvalidArgument ->
  from_chars_float_advanced c u t s o' = Ok {| r_ptr := rest; r_ec := x; r_value := v |}.
Proof.
  intros c u t o o' s rest x v (P0 & P1 & P2 & P3 & P4 & P5 & P6 & P7) NP G' E NI.
  assert (SK : skips_space c o = true -> skips_space c o' = true).
  { unfold skips_space. rewrite !orb_true_iff. tauto. }
  assert (G : good_text c u o s).
  { destruct G' as (A & B & L & D). split; [exact A|]. split; [|split; [exact L|rewrite <- P0; exact D]].
    intros EU. specialize (B EU). eapply Forall_impl; [|exact B]. cbn beta. intros ch (H1 & H2). split; [exact H1|]. auto. }
  assert (PL : leading_plus (rules_of c o) = true -> leading_plus (rules_of c o') = true).
  { cbn. rewrite !orb_true_iff. tauto. }
  destruct (starts_exists c o s) as (s0 & SA).
  destruct (number_or_not c u o _ s0 G SA) as [(neg & ip & fp & e & r & N)|NN].
  - pose proof (starts_more c o o' s s0 SK SA (number_first (rules_of c o) _ _ _ _ _ _ NP N)) as SA'.
    assert (N' : number (rules_of c o') s0 neg ip fp e r) by (apply (more_number (rules_of c o)); assumption).
    destruct (float_same c t ip fp e o u _ _ _ _ o' u _ _ _ _ G SA N G' SA' N') as (b & y & _ & E1 & E2).
    rewrite E1 in E. injection E as <- <- <-. exact E2.
  - destruct (other_main c u t o _ s0 G SA NN) as [(_ & E')|[(_ & _ & E')|(neg & k & r & AS & SP & E')]];
      rewrite E' in E; injection E as <- <- <-; try congruence.
    pose proof (starts_more c o o' s s0 SK SA (special_first _ _ _ _ _ SP)) as SA'.
    pose proof (more_special _ _ _ _ _ _ PL SP) as SP'.
    destruct (other_main c u t o' _ _ G' SA' (special_not_number _ _ _ _ _ _ SP')) as [(A & _)|[(_ & NS & _)|(n' & k' & r' & _ & SP2 & E2)]].
    + exfalso. unfold allows_special in *. destruct (Z.testbit (o_format o') 4); [rewrite P6 in AS by reflexivity; discriminate AS|discriminate A].
    + destruct (NS _ _ _ SP').
    + destruct (special_unique _ _ _ _ _ _ _ _ SP' SP2) as (<- & <- & <-). exact E2.
Qed.
Print Assumptions from_chars_permits_more.

(** In particular: what the JSON mode accepts, general accepts with the same result. *)
Corollary from_chars_json_then_general :
  forall (c : cfg) (u : uc) (t : ftype) (s rest : list Z) (x : ec) (v : option Z),
  good_text c u general s ->
  from_chars_float_advanced c u t s json_options = Ok {| r_ptr := rest; r_ec := x; r_value := v |} -> x <> InvalidArgument ->
  from_chars_float_advanced c u t s general = Ok {| r_ptr := rest; r_ec := x; r_value := v |}.
Proof.
  intros c u t s rest x v. apply from_chars_permits_more.
  - repeat split; cbn; congruence.
  - split; [reflexivity|]. split; [reflexivity|]. cbn. lia.
Qed.
Print Assumptions from_chars_json_then_general.

(** Allowing the exponent is not of this kind: "1e1" is 1 with fixed, 10 with general. *)
Theorem from_chars_permits_exponent_counterexample :
  let fixed_only := {| o_format := 4; o_decimal_point := 46; o_base := 10 |} in
  from_chars_float_advanced cfg_x86_64 Char_s F64 [49; 101; 49] fixed_only =
    Ok {| r_ptr := [101; 49]; r_ec := Success; r_value := Some 4607182418800017408 |} /\
  from_chars_float_advanced cfg_x86_64 Char_s F64 [49; 101; 49] general =
    Ok {| r_ptr := []; r_ec := Success; r_value := Some 4621819117588971520 |}.
Proof. cbv zeta. split; vm_compute; reflexivity. Qed.
Print Assumptions from_chars_permits_exponent_counterexample.

Lemma permits_more_example :
  let scientific_only := {| o_format := 1 + 16; o_decimal_point := 44; o_base := 10 |} in
  let lenient := {| o_format := 1 + 4 + 128 + 256; o_decimal_point := 44; o_base := 10 |} in
  permits_more scientific_only lenient /\ neutral (o_decimal_point scientific_only) /\
  good_text cfg_x86_64 Char_s lenient [49; 44; 53; 101; 49; 32] /\
  from_chars_float_advanced cfg_x86_64 Char_s F64 [49; 44; 53; 101; 49; 32] scientific_only =
    Ok {| r_ptr := [32]; r_ec := Success; r_value := Some 4624633867356078080 |}.
Proof.
  cbv zeta. split; [repeat split; cbn; congruence|]. split; [split; [reflexivity|split; [reflexivity|cbn; lia]]|].
  split; [apply ascii_good; [repeat constructor; lia|cbn; lia|reflexivity]|vm_compute; reflexivity].
Qed.

(** "-0.5e1," under the JSON rules and under the general ones. *)
Lemma json_then_general_example :
  good_text cfg_x86_64 Char_s general [45; 48; 46; 53; 101; 49; 44] /\
  from_chars_float_advanced cfg_x86_64 Char_s F64 [45; 48; 46; 53; 101; 49; 44] json_options =
    Ok {| r_ptr := [44]; r_ec := Success; r_value := Some (2 ^ 63 + 1025 * 2 ^ 52 + 2 ^ 50) |} /\
  from_chars_float_advanced cfg_x86_64 Char_s F64 [45; 48; 46; 53; 101; 49; 44] general =
    Ok {| r_ptr := [44]; r_ec := Success; r_value := Some (2 ^ 63 + 1025 * 2 ^ 52 + 2 ^ 50) |}.
Proof.
  split; [apply ascii_good; [repeat constructor; lia|cbn; lia|reflexivity]|]. split; vm_compute; reflexivity.
Qed.
