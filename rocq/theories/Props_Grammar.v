(** Properties C03, C08, C09, C10: which texts are numbers and where they end.
    Statements use the entry point, SpecGrammar, SpecText, SpecApi and SpecFloat. *)
From Verif Require Defined.
From Verif Require Import Machine Config Chars Format ParseNumber DecToBin FromChars WordLemmas
  Rounding ComputeFloat SpecFloat FloatBridge Pow10 SpecGrammar SpecApi SpecRel SpecText Scan ParseSpec Special
  SlowPath ManyDigits Saturate FloatMaster FloatApi FloatRel TextSpec Props_Pow10 Props_Float Props_Relations Props_Texts.
From Coq Require Import QArith Qabs.
Open Scope Z_scope.

(** A value was stored for a number or special value. *)
Lemma accepted_number c u t o s s0 neg ip fp e rest :
  good_text c u o s -> starts_at c o s s0 -> number (rules_of c o) s0 neg ip fp e rest -> exponent_bounded s e ->
  exists b x,
    from_chars_float_advanced c u t s o =
      Ok {| r_ptr := rest; r_ec := x; r_value := Some (with_sign (format_of t) neg b) |} /\
    x <> InvalidArgument /\ nearest (format_of t) (number_value ip fp e) b /\
    (t <> F16 -> nearest_even (format_of t) (number_value ip fp e) b).
Proof.
  intros G SA N EB. destruct (number_near c u t o s s0 neg ip fp e rest G SA N EB) as (b & x & E & NR).
  exists b, x. split; [exact E|]. split.
  - intros ->. destruct (from_chars_invalid_only c u t o s s0 _ G SA E eq_refl) as (NN & _). exact (NN _ _ _ _ _ N).
  - split; [apply nearest_of; exact NR|]. intros NT. apply rounds_nearest_even, near_not_F16; assumption.
Qed.

(** ** C03: the longest match *)
Theorem from_chars_longest_match :
  forall (c : cfg) (u : uc) (t : ftype) (o : options) (s s0 p rest : list Z)
         (neg : bool) (ip fp : list Z) (e : Z),
  good_text c u o s -> starts_at c o s s0 ->
  plain_point (rules_of c o) -> usual_flags (rules_of c o) -> json (rules_of c o) = false ->
  number_text (rules_of c o) p neg ip fp e -> longest_number (rules_of c o) s0 p rest ->
  exponent_bounded s e ->
  exists b x,
    from_chars_float_advanced c u t s o =
      Ok {| r_ptr := rest; r_ec := x; r_value := Some (with_sign (format_of t) neg b) |} /\
    x <> InvalidArgument /\ nearest (format_of t) (number_value ip fp e) b /\
    (t <> F16 -> nearest_even (format_of t) (number_value ip fp e) b).
Proof.
  intros c u t o s s0 p rest neg ip fp e G SA PP UF J NT LN EB.
  destruct (number_accepts (rules_of c o) s0 p rest neg ip fp e PP UF (proj1 LN) NT ltac:(congruence))
    as (neg' & ip' & fp' & e' & r & N).
  destruct (number_longest _ _ _ _ _ _ _ PP N) as (p' & NT' & LN').
  destruct (longest_unique _ _ _ _ _ _ _ _ _ _ _ _ _ _ PP NT LN NT' LN') as (<- & <- & <- & <- & <- & <-).
  exact (accepted_number c u t o s s0 neg ip fp e rest G SA N EB).
Qed.
Print Assumptions from_chars_longest_match.

(** Conversely, whatever is accepted is the longest number - or, if the text
    starts with no number at all, a special value.  JSON included. *)
Theorem from_chars_accepts_longest :
  forall (c : cfg) (u : uc) (t : ftype) (o : options) (s s0 rest : list Z) (x : ec) (v : option Z),
  good_text c u o s -> starts_at c o s s0 -> plain_point (rules_of c o) ->
  from_chars_float_advanced c u t s o = Ok {| r_ptr := rest; r_ec := x; r_value := v |} ->
  x <> InvalidArgument ->
  (exists p neg ip fp e, number_text (rules_of c o) p neg ip fp e /\ longest_number (rules_of c o) s0 p rest) \/
  (exists neg k, allows_special o = true /\ special (leading_plus (rules_of c o)) s0 neg k rest).
Proof.
  intros c u t o s s0 rest x v G SA PP E NI.
  destruct (number_or_not c u o _ s0 G SA) as [(neg & ip & fp & e & r & N)|NN].
  - left. destruct (float_same c t ip fp e o u _ _ _ _ o u _ _ _ _ G SA N G SA N) as (b0 & x0 & _ & E0 & _).
    rewrite E0 in E. injection E as -> _ _.
    destruct (number_longest _ _ _ _ _ _ _ PP N) as (p' & NT' & LN'). exists p', neg, ip, fp, e. auto.
  - right. destruct (other_main c u t o s s0 G SA NN) as [(_ & E')|[(_ & _ & E')|(neg & k & r & AS & SP & E')]];
      rewrite E' in E; injection E as -> <- <-; try congruence. eauto.
Qed.
Print Assumptions from_chars_accepts_longest.

(** If no initial part of the text is a number, none is reported. *)
Theorem from_chars_no_number :
  forall (c : cfg) (u : uc) (t : ftype) (o : options) (s s0 : list Z),
  good_text c u o s -> starts_at c o s s0 ->
  (forall p rest neg ip fp e, s0 = p ++ rest -> ~ number_text (rules_of c o) p neg ip fp e) ->
  (allows_special o = true -> forall neg k rest, ~ special (leading_plus (rules_of c o)) s0 neg k rest) ->
  from_chars_float_advanced c u t s o = Ok {| r_ptr := s0; r_ec := InvalidArgument; r_value := None |}.
Proof.
  intros c u t o s s0 G SA NN NS. apply from_chars_invalid; try assumption.
  intros neg ip fp e rest N. destruct (number_number_text _ _ _ _ _ _ _ N) as (p & -> & NT). exact (NN _ _ _ _ _ _ eq_refl NT).
Qed.
Print Assumptions from_chars_no_number.

(** A text that meets the hypotheses of [from_chars_longest_match]: "12.5e+3x". *)
Example longest_example :
  number_text (rules_of cfg_x86_64 general) [49; 50; 46; 53; 101; 43; 51] false [49; 50] [53] 3 /\
  longest_number (rules_of cfg_x86_64 general) [49; 50; 46; 53; 101; 43; 51; 120] [49; 50; 46; 53; 101; 43; 51] [120] /\
  from_chars_float cfg_x86_64 Char_s F64 [49; 50; 46; 53; 101; 43; 51; 120] 5 =
    Ok {| r_ptr := [120]; r_ec := Success; r_value := Some 4668097562002063360 |}.
Proof.
  assert (N : number (rules_of cfg_x86_64 general) [49; 50; 46; 53; 101; 43; 51; 120] false [49; 50] [53] 3 [120]).
  { exists [49; 50; 46; 53; 101; 43; 51; 120], [46; 53; 101; 43; 51; 120], true, [101; 43; 51; 120].
    split; [apply signed_none; cbn; lia|]. split; [split; [reflexivity|split; [repeat constructor|discriminate]]|].
    split; [apply (fraction_some (rules_of cfg_x86_64 general)); split; [reflexivity|split; [repeat constructor|discriminate]]|].
    split; [discriminate|]. apply (exponent_some _ _ [43; 51; 120] false [51; 120] [51]).
    - apply mark_e; auto.
    - constructor.
    - split; [reflexivity|split; [repeat constructor|discriminate]].
    - discriminate. }
  destruct (number_longest (rules_of cfg_x86_64 general) _ _ _ _ _ _ ltac:(split; [reflexivity|cbn; lia]) N) as (p & NT & LN).
  assert (p = [49; 50; 46; 53; 101; 43; 51]) as ->.
  { apply (app_inv_tail [120]). rewrite <- (proj1 LN). reflexivity. }
  split; [exact NT|]. split; [exact LN|]. vm_compute. reflexivity.
Qed.

(** Fortran without fixed and scientific is the exception to the longest-match
    rule: "1d" starts with the number "1" but is rejected. *)
Theorem fortran_only_refuted :
  let o := {| o_format := 64; o_decimal_point := 46; o_base := 10 |} in
  number_text (rules_of cfg_x86_64 o) [49] false [49] [] 0 /\
  from_chars_float_advanced cfg_x86_64 Char_s F64 [49] o =
    Ok {| r_ptr := []; r_ec := Success; r_value := Some 4607182418800017408 |} /\
  from_chars_float_advanced cfg_x86_64 Char_s F64 [49; 100] o =
    Ok {| r_ptr := [49; 100]; r_ec := InvalidArgument; r_value := None |}.
Proof.
  intros o. split; [|split; vm_compute; reflexivity].
  exists [], false, [], []. split; [reflexivity|]. split; [right; left; auto|]. split; [repeat constructor|].
  split; [left; auto|]. split; [cbn; discriminate|]. left. cbn. auto.
Qed.
Print Assumptions fortran_only_refuted.

(** ** C08: white space and plus *)
Lemma number_first R s neg ip fp e rest : number R s neg ip fp e rest ->
  exists ch l, s = ch :: l /\
    (ch = 45 \/ (ch = 43 /\ leading_plus R = true /\ json R = false) \/ digit ch = true \/ ch = point R).
Proof.
  intros N. pose proof N as (s1 & s2 & hp & s3 & SG & _).
  destruct (number_head _ _ _ _ _ _ _ N) as (s1' & _).
  inversion SG; subst.
  - eauto 10.
  - eauto 10.
  - destruct N as (x1 & x2 & hp' & x3 & SG' & (RI & AI & NI) & F & MO & EX).
    destruct (signed_unique _ _ _ _ _ _ SG SG') as (_ & <-).
    destruct ip as [|d ip].
    + cbn [app] in RI. subst x2. inversion F as [? ds ? (E & A & _)|]; subst.
      * eauto 10.
      * exfalso. unfold mantissa_ok in MO. destruct (json R); [destruct MO as (MO & _)|]; apply MO; reflexivity.
    + inversion AI; subst. cbn [app]. eauto 10.
Qed.

Lemma special_first plus s neg k rest : special plus s neg k rest ->
  exists ch l, s = ch :: l /\ (ch = 45 \/ (ch = 43 /\ plus = true) \/ In ch [110; 78; 105; 73]).
Proof.
  intros SP.
  assert (G : forall s1 x w r, special_sign plus s neg s1 -> same_letters (x :: w) s1 r -> x = 110 \/ x = 105 ->
     exists ch l, s = ch :: l /\ (ch = 45 \/ (ch = 43 /\ plus = true) \/ In ch [110; 78; 105; 73])).
  { intros s1 x w r SS SL X. inversion SS; subst; [exists 45, s1; auto|exists 43, s1; auto 6|].
    inversion SL as [|? ? ch s' ? C _]; subst. exists ch, s'. split; [reflexivity|]. right. right. cbn. lia. }
  inversion SP as [? ? s1 s2 ? SS SL PL|? ? s1 s2 ? SS SL SL2|? ? s1 ? SS SL NI]; subst; eapply G; eauto.
Qed.

Lemma space_cases ch : space ch = true -> ch = 9 \/ ch = 10 \/ ch = 11 \/ ch = 12 \/ ch = 13 \/ ch = 32.
Proof.
  unfold space. intros H. apply orb_true_iff in H. destruct H as [H|H]; [|apply Z.eqb_eq in H; lia].
  apply andb_true_iff in H. destruct H as [H1 H2]. apply Z.leb_le in H1, H2. lia.
Qed.

Theorem from_chars_space_rejected :
  forall (c : cfg) (u : uc) (t : ftype) (o : options) (ch : Z) (s : list Z),
  good_text c u o (ch :: s) -> skips_space c o = false -> space ch = true -> ch <> o_decimal_point o ->
  from_chars_float_advanced c u t (ch :: s) o = Ok {| r_ptr := ch :: s; r_ec := InvalidArgument; r_value := None |}.
Proof.
  intros c u t o ch s G SK SP NP. apply space_cases in SP. apply from_chars_invalid; [exact G| | |].
  - unfold starts_at. rewrite SK. reflexivity.
  - intros neg ip fp e rest N. destruct (number_first _ _ _ _ _ _ _ N) as (ch' & l & E & H). injection E as <- <-.
    cbn [point rules_of] in H. destruct H as [H|[(H & _)|[H|H]]]; try lia. apply digit_true in H. lia.
  - intros _ neg k rest S. destruct (special_first _ _ _ _ _ S) as (ch' & l & E & H). injection E as <- <-.
    cbn in H. lia.
Qed.
Print Assumptions from_chars_space_rejected.

Lemma good_suffix c u o w s : good_text c u o (w ++ s) -> good_text c u o s.
Proof.
  intros (A & B & L & D). apply Forall_app in A. destruct A as (A1 & A2).
  split; [exact A2|]. split.
  - intros E. specialize (B E). apply Forall_app in B. apply B.
  - rewrite app_length in *. split; [lia|exact D].
Qed.

Theorem from_chars_space_skipped :
  forall (c : cfg) (u : uc) (t : ftype) (o : options) (w s0 : list Z),
  good_text c u o (w ++ s0) -> skips_space c o = true ->
  Forall (fun ch => space ch = true) w -> not_at (fun ch => space ch = true) s0 ->
  exists r, from_chars_float_advanced c u t (w ++ s0) o = Ok r /\ from_chars_float_advanced c u t s0 o = Ok r /\
    exists consumed, s0 = consumed ++ r_ptr r.
Proof.
  intros c u t o w s0 G SK W N. pose proof (good_suffix _ _ _ _ _ G) as G0.
  assert (S1 : starts_at c o (w ++ s0) s0) by (unfold starts_at; rewrite SK; exists w; auto).
  assert (S2 : starts_at c o s0 s0) by (unfold starts_at; rewrite SK; exists []; auto).
  destruct (float_det c u c u t o _ _ s0 G G0 eq_refl S1 S2) as (r1 & r2 & E1 & E2 & _ & _ & _ & EQ).
  rewrite <- (EQ (iff_refl _)) in E2. exists r1. split; [exact E1|]. split; [exact E2|].
  destruct (good_text_ok _ _ _ _ G0) as (OK0 & _ & L0 & _).
  destruct (Defined.float_total c u t o s0 OK0 L0) as (r & E & P). rewrite E in E2. injection E2 as ->. exact P.
Qed.
Print Assumptions from_chars_space_skipped.

(** Tab, newline, "1.5": rejected by default, accepted with skip_white_space. *)
Example space_example :
  let s := [9; 10; 49; 46; 53] in
  let o := {| o_format := 261; o_decimal_point := 46; o_base := 10 |} in
  good_text cfg_x86_64 Char_s general s /\ skips_space cfg_x86_64 general = false /\ space 9 = true /\
  from_chars_float_advanced cfg_x86_64 Char_s F64 s general =
    Ok {| r_ptr := s; r_ec := InvalidArgument; r_value := None |} /\
  good_text cfg_x86_64 Char_s o ([9; 10] ++ [49; 46; 53]) /\ skips_space cfg_x86_64 o = true /\
  Forall (fun ch => space ch = true) [9; 10] /\ not_at (fun ch => space ch = true) [49; 46; 53] /\
  from_chars_float_advanced cfg_x86_64 Char_s F64 s o =
    Ok {| r_ptr := []; r_ec := Success; r_value := Some 4609434218613702656 |}.
Proof.
  intros s o. split; [apply ascii_good; [repeat constructor; lia|vm_compute; discriminate|reflexivity]|].
  split; [reflexivity|]. split; [reflexivity|]. split; [vm_compute; reflexivity|].
  split; [apply ascii_good; [repeat constructor; lia|vm_compute; discriminate|reflexivity]|].
  split; [reflexivity|]. split; [repeat constructor|]. split; [cbn; discriminate|]. vm_compute. reflexivity.
Qed.

Theorem from_chars_plus_rejected :
  forall (c : cfg) (u : uc) (t : ftype) (o : options) (s l : list Z),
  good_text c u o s -> starts_at c o s (43 :: l) ->
  Z.testbit (o_format o) 7 = false -> macro_leading_plus c = false -> o_decimal_point o <> 43 ->
  from_chars_float_advanced c u t s o = Ok {| r_ptr := 43 :: l; r_ec := InvalidArgument; r_value := None |}.
Proof.
  intros c u t o s l G SA F7 M NP. apply from_chars_invalid; [exact G|exact SA| |].
  - intros neg ip fp e rest N. destruct (number_first _ _ _ _ _ _ _ N) as (ch' & l' & E & H). injection E as <- <-.
    cbn [point rules_of leading_plus json] in H. rewrite F7, M in H.
    destruct H as [H|[(_ & H & _)|[H|H]]]; try discriminate H. congruence.
  - intros _ neg k rest S. destruct (special_first _ _ _ _ _ S) as (ch' & l' & E & H). injection E as <- <-.
    cbn [leading_plus rules_of] in H. rewrite F7, M in H. cbn in H. destruct H as [H|[(_ & H)|H]]; [lia|discriminate H|lia].
Qed.
Print Assumptions from_chars_plus_rejected.

(** JSON numbers never start with plus, whatever the other flags are. *)
Theorem from_chars_json_plus_rejected :
  forall (c : cfg) (u : uc) (t : ftype) (o : options) (s l : list Z),
  good_text c u o s -> starts_at c o s (43 :: l) ->
  Z.testbit (o_format o) 5 = true -> Z.testbit (o_format o) 4 = true -> o_decimal_point o <> 43 ->
  from_chars_float_advanced c u t s o = Ok {| r_ptr := 43 :: l; r_ec := InvalidArgument; r_value := None |}.
Proof.
  intros c u t o s l G SA F5 F4 NP. apply from_chars_invalid; [exact G|exact SA| |].
  - intros neg ip fp e rest N. destruct (number_first _ _ _ _ _ _ _ N) as (ch' & l' & E & H). injection E as <- <-.
    cbn [point rules_of leading_plus json] in H. rewrite F5 in H.
    destruct H as [H|[(_ & _ & H)|[H|H]]]; try discriminate H. congruence.
  - unfold allows_special. rewrite F4. discriminate.
Qed.
Print Assumptions from_chars_json_plus_rejected.

(** Where it is allowed, a plus changes nothing. *)
Lemma number_plus R s ip fp e rest : leading_plus R = true -> json R = false -> unsigned s ->
  number R s false ip fp e rest -> number R (43 :: s) false ip fp e rest.
Proof.
  intros L J NS (s1 & s2 & hp & s3 & SG & H). exists s1, s2, hp, s3. split; [|exact H].
  inversion SG; subst; [exfalso; cbn in NS; tauto|constructor; assumption].
Qed.

Lemma special_plus s neg k rest : unsigned s -> special true s neg k rest -> special true (43 :: s) neg k rest.
Proof.
  intros NS H.
  assert (G : forall s1, special_sign true s neg s1 -> special_sign true (43 :: s) neg s1).
  { intros s1 SS. inversion SS; subst; [exfalso; cbn in NS; tauto|exfalso; cbn in NS; tauto|constructor; reflexivity]. }
  inversion H as [? ? s1 s2 ? SS SL PL|? ? s1 s2 ? SS SL SL2|? ? s1 ? SS SL NI]; subst.
  - eapply special_nan; [apply G; exact SS|exact SL|exact PL].
  - eapply special_infinity; [apply G; exact SS|exact SL|exact SL2].
  - eapply special_inf; [apply G; exact SS|exact SL|exact NI].
Qed.

Theorem from_chars_plus_accepted :
  forall (c : cfg) (u : uc) (t : ftype) (o : options) (s0 : list Z) (r : result),
  good_text c u o (43 :: s0) -> starts_at c o s0 s0 -> unsigned s0 ->
  Z.testbit (o_format o) 7 = true -> Z.testbit (o_format o) 5 = false ->
  from_chars_float_advanced c u t s0 o = Ok r -> r_ec r <> InvalidArgument ->
  from_chars_float_advanced c u t (43 :: s0) o = Ok r.
Proof.
  intros c u t o s0 r G SA US F7 F5 E NI. pose proof (good_suffix c u o [43] s0 G) as G0.
  assert (L : leading_plus (rules_of c o) = true) by (cbn [leading_plus rules_of]; rewrite F7; reflexivity).
  assert (J : json (rules_of c o) = false) by exact F5.
  assert (SA' : starts_at c o (43 :: s0) (43 :: s0)).
  { unfold starts_at in *. destruct (skips_space c o); [|reflexivity]. exists []. split; [reflexivity|]. split; [constructor|]. cbn. discriminate. }
  destruct (number_or_not c u o _ s0 G0 SA) as [(neg & ip & fp & e & rr & N)|NN].
  - assert (NEG : neg = false).
    { destruct N as (s1 & s2 & hp & s3 & SG & _). inversion SG; subst; try reflexivity. exfalso. cbn in US. tauto. }
    subst neg. pose proof (number_plus _ _ _ _ _ _ L J US N) as N'.
    destruct (float_same c t ip fp e o u _ _ _ _ o u _ _ _ _ G0 SA N G SA' N') as (b & y & RB & E1 & E2).
    rewrite E1 in E. injection E as <-. exact E2.
  - destruct (other_main c u t o _ s0 G0 SA NN) as [(_ & E')|[(_ & _ & E')|(neg & k & rr & AS & SP & E')]];
      rewrite E' in E; injection E as <-; try (cbn in NI; congruence).
    rewrite L in SP. pose proof (special_plus _ _ _ _ US SP) as SP'. rewrite <- L in SP'.
    destruct (other_main c u t o _ _ G SA' (special_not_number _ _ _ _ _ _ SP')) as [(A & _)|[(_ & NS & _)|(n' & k' & r' & _ & SP2 & E2)]].
    + congruence.
    + destruct (NS _ _ _ SP').
    + destruct (special_unique _ _ _ _ _ _ _ _ SP' SP2) as (<- & <- & <-). exact E2.
Qed.
Print Assumptions from_chars_plus_accepted.

(** "+1.5": rejected by general and json, accepted with allow_leading_plus. *)
Example plus_example :
  let s := [43; 49; 46; 53] in
  let o := {| o_format := 133; o_decimal_point := 46; o_base := 10 |} in
  let j := {| o_format := 181; o_decimal_point := 46; o_base := 10 |} in
  good_text cfg_x86_64 Char_s general s /\ good_text cfg_x86_64 Char_s o s /\ good_text cfg_x86_64 Char_s j s /\
  starts_at cfg_x86_64 o [49; 46; 53] [49; 46; 53] /\ unsigned [49; 46; 53] /\
  Z.testbit (o_format o) 7 = true /\ Z.testbit (o_format o) 5 = false /\
  Z.testbit (o_format j) 7 = true /\ Z.testbit (o_format j) 5 = true /\ Z.testbit (o_format j) 4 = true /\
  from_chars_float_advanced cfg_x86_64 Char_s F64 s general = Ok {| r_ptr := s; r_ec := InvalidArgument; r_value := None |} /\
  from_chars_float_advanced cfg_x86_64 Char_s F64 s j = Ok {| r_ptr := s; r_ec := InvalidArgument; r_value := None |} /\
  from_chars_float_advanced cfg_x86_64 Char_s F64 s o =
    Ok {| r_ptr := []; r_ec := Success; r_value := Some 4609434218613702656 |}.
Proof.
  intros s o j.
  do 3 (split; [apply ascii_good; [repeat constructor; lia|vm_compute; discriminate|reflexivity]|]).
  split; [reflexivity|]. split; [cbn; lia|]. do 5 (split; [reflexivity|]). repeat split; vm_compute; reflexivity.
Qed.
