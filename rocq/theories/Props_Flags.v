(** Property C10: the fixed, scientific and Fortran flags. *)
From Verif Require Import Machine Config Chars Format ParseNumber DecToBin FromChars WordLemmas
  Rounding ComputeFloat SpecFloat FloatBridge Pow10 SpecGrammar SpecApi SpecRel SpecText Scan ParseSpec Special
  SlowPath ManyDigits Saturate FloatMaster FloatApi FloatRel TextSpec Props_Pow10 Props_Float Props_Relations Props_Texts Props_Grammar.
From Coq Require Import QArith Qabs.
Open Scope Z_scope.

Lemma mantissa_number R a neg ip fp s3 e rest : plain_point R -> mantissa_text R a neg ip fp ->
  not_at_digit s3 -> not_at (fun ch => ch = point R) s3 -> exponent R s3 e rest ->
  number R (a ++ s3) neg ip fp e rest.
Proof.
  intros PP (sg & hp & pt & -> & ST & AI & FT & MO) ND NP EX.
  exists (ip ++ pt ++ s3), (pt ++ s3), hp, s3.
  destruct (mantissa_head R ip hp fp pt s3 PP AI FT MO) as (ch & l & EH & CH).
  destruct (mantissa_head_sign R ch PP CH) as (H1 & H2).
  assert (NDP : not_at_digit (pt ++ s3)).
  { destruct FT as [(_ & _ & ->)|(_ & _ & ->)]; [exact ND|]. cbn. destruct PP as (PP & _). congruence. }
  split.
  { rewrite <- !app_assoc. destruct ST as [(-> & ->)|[(-> & ->)|(-> & -> & L & J)]]; [constructor| |constructor; assumption].
    cbn [app]. constructor. rewrite EH. cbn. tauto. }
  split; [repeat split; assumption|]. split; [|split; [exact MO|exact EX]].
  destruct FT as [(-> & -> & ->)|(-> & AF & ->)]; cbn [app]; [apply fraction_none; exact NP|].
  apply fraction_some. repeat split; assumption.
Qed.

Lemma number_text_mantissa R p neg ip fp e : number_text R p neg ip fp e ->
  exists a ex, p = a ++ ex /\ mantissa_text R a neg ip fp /\ exponent_text R e ex.
Proof.
  intros (sg & hp & pt & ex & -> & ST & AI & FT & MO & ET). exists (sg ++ ip ++ pt), ex.
  split; [rewrite <- !app_assoc; reflexivity|]. split; [|exact ET]. exists sg, hp, pt. auto.
Qed.

(** With fixed notation only, the consumed text is a number without exponent:
    nothing but a sign, digits and a point; and what follows is no digit. *)
Theorem from_chars_fixed_only :
  forall (c : cfg) (u : uc) (t : ftype) (o : options) (s s0 rest : list Z) (x : ec) (v : option Z),
  good_text c u o s -> starts_at c o s s0 ->
  scientific (rules_of c o) = false -> fortran (rules_of c o) = false ->
  from_chars_float_advanced c u t s o = Ok {| r_ptr := rest; r_ec := x; r_value := v |} ->
  x <> InvalidArgument ->
  (exists a neg ip fp b, s0 = a ++ rest /\ mantissa_text (rules_of c o) a neg ip fp /\ not_at_digit rest /\
     v = Some (with_sign (format_of t) neg b) /\ nearest (format_of t) (number_value ip fp 0) b /\
     (t <> F16 -> nearest_even (format_of t) (number_value ip fp 0) b)) \/
  (exists neg k, allows_special o = true /\ special (leading_plus (rules_of c o)) s0 neg k rest).
Proof.
  intros c u t o s s0 rest x v G SA SC FO E NI.
  destruct (number_or_not c u o _ s0 G SA) as [(neg & ip & fp & e & r & N)|NN].
  - left. destruct (number_number_text _ _ _ _ _ _ _ N) as (p & EP & NT).
    destruct (number_text_mantissa _ _ _ _ _ _ NT) as (a & ex & -> & MT & ET).
    assert (ex = [] /\ e = 0) as (-> & ->).
    { destruct ET as [(-> & -> & _)|(m & sg & ds & _ & _ & _ & _ & [(C & _)|[(C & _)|(C & _)]])]; [auto|congruence..]. }
    destruct (accepted_number c u t o s s0 neg ip fp 0 r G SA N) as (b & y & E0 & _ & N1 & N2); [right; reflexivity|].
    rewrite E0 in E. injection E as -> -> <-. rewrite app_nil_r in EP.
    exists a, neg, ip, fp, b. split; [exact EP|]. split; [exact MT|]. split; [|split; [reflexivity|split; [exact N1|exact N2]]].
    destruct N as (s1 & s2 & hp & s3 & SG & (RI & AI & NI') & F & MO & EX).
    assert (N3 : not_at_digit s3) by (inversion F as [? ? ? (_ & _ & N3)|]; subst; assumption).
    inversion EX as [? ? ? ? ? ? ? ? (_ & _ & NR)| |]; subst; assumption.
  - right. destruct (other_main c u t o s s0 G SA NN) as [(_ & E')|[(_ & _ & E')|(neg & k & r & AS & SP & E')]];
      rewrite E' in E; injection E as -> <- <-; try congruence. eauto.
Qed.
Print Assumptions from_chars_fixed_only.

(** With scientific notation only, the consumed text ends with a complete exponent. *)
Theorem from_chars_scientific_only :
  forall (c : cfg) (u : uc) (t : ftype) (o : options) (s s0 rest : list Z) (x : ec) (v : option Z),
  good_text c u o s -> starts_at c o s s0 ->
  scientific (rules_of c o) = true -> fixed (rules_of c o) = false ->
  from_chars_float_advanced c u t s o = Ok {| r_ptr := rest; r_ec := x; r_value := v |} ->
  x <> InvalidArgument ->
  (exists a m sg ds neg ip fp, s0 = (a ++ m ++ sg ++ ds) ++ rest /\ mantissa_text (rules_of c o) a neg ip fp /\
     (sg = [45] \/ sg = [43] \/ sg = []) /\ all_digits ds /\ ds <> [] /\
     ((exists l, m = [l] /\ exponent_letter (rules_of c o) l) \/
      (fortran (rules_of c o) = true /\ m = [] /\ sg <> []))) \/
  (exists neg k, allows_special o = true /\ special (leading_plus (rules_of c o)) s0 neg k rest).
Proof.
  intros c u t o s s0 rest x v G SA SC FX E NI.
  destruct (number_or_not c u o _ s0 G SA) as [(neg & ip & fp & e & r & N)|NN].
  - left. destruct (number_number_text _ _ _ _ _ _ _ N) as (p & EP & NT).
    destruct (number_text_mantissa _ _ _ _ _ _ NT) as (a & ex & -> & MT & ET).
    destruct (float_same c t ip fp e o u _ _ _ _ o u _ _ _ _ G SA N G SA N) as (b0 & x0 & _ & E0 & _).
    rewrite E0 in E. injection E as -> _ _.
    destruct ET as [(_ & _ & [C|C])|(m & sg & ds & -> & AD & ND & ES & EM)]; [congruence|congruence|].
    exists a, m, sg, ds, neg, ip, fp. split; [exact EP|]. split; [exact MT|]. split; [tauto|]. split; [exact AD|]. split; [exact ND|].
    unfold exponent_letter. destruct EM as [(C & [-> | ->])|[(C & [-> | ->])|(C & -> & NS)]]; [left; eexists; split; [reflexivity|]; tauto..|].
    right. auto.
  - right. destruct (other_main c u t o s s0 G SA NN) as [(_ & E')|[(_ & _ & E')|(neg & k & r & AS & SP & E')]];
      rewrite E' in E; injection E as -> <- <-; try congruence. eauto.
Qed.
Print Assumptions from_chars_scientific_only.

Lemma exponent_letter_not_digit R m : exponent_letter R m -> digit m = false /\ In m [101; 69; 100; 68; 43; 45].
Proof. intros [(_ & [-> | ->])|(_ & [-> | ->])]; (split; [reflexivity|]); cbn; auto 8. Qed.

(** With fixed notation allowed, an exponent letter without exponent digits is
    not consumed: the result is that of the number before it, whose end the
    pointer reports. *)
Theorem from_chars_dangling_exponent :
  forall (c : cfg) (u : uc) (t : ftype) (o : options) (a : list Z) (m : Z) (sg rest : list Z)
         (neg : bool) (ip fp : list Z),
  good_text c u o (a ++ m :: sg ++ rest) ->
  starts_at c o (a ++ m :: sg ++ rest) (a ++ m :: sg ++ rest) ->
  plain_point (rules_of c o) -> fixed (rules_of c o) = true ->
  mantissa_text (rules_of c o) a neg ip fp -> exponent_letter (rules_of c o) m ->
  (sg = [45] \/ sg = [43] \/ (sg = [] /\ unsigned rest)) -> not_at_digit rest ->
  exists b x,
    from_chars_float_advanced c u t (a ++ m :: sg ++ rest) o =
      Ok {| r_ptr := m :: sg ++ rest; r_ec := x; r_value := Some (with_sign (format_of t) neg b) |} /\
    x <> InvalidArgument /\ nearest (format_of t) (number_value ip fp 0) b /\
    (t <> F16 -> nearest_even (format_of t) (number_value ip fp 0) b).
Proof.
  intros c u t o a m sg rest neg ip fp G SA PP FX MT EL SG ND.
  destruct (exponent_letter_not_digit _ _ EL) as (D & I0).
  assert (EM : exp_mark (rules_of c o) (m :: sg ++ rest) (sg ++ rest)).
  { destruct EL as [(H & H')|(H & H')]; [apply mark_e|apply mark_d]; assumption. }
  assert (ES : exists n, exp_sign (sg ++ rest) n rest).
  { destruct SG as [->|[->|(-> & US)]]; [exists true; constructor|exists false; constructor|exists false; constructor; exact US]. }
  destruct ES as (n & ES).
  assert (N : number (rules_of c o) (a ++ m :: sg ++ rest) neg ip fp 0 (m :: sg ++ rest)).
  { apply mantissa_number; try assumption.
    - cbn. rewrite D. discriminate.
    - intros E. destruct PP as (_ & PP). apply PP. change (m = point (rules_of c o)) in E. rewrite <- E. exact I0.
    - eapply exponent_dangling; eassumption. }
  apply (accepted_number c u t o _ _ neg ip fp 0 _ G SA N). right. reflexivity.
Qed.
Print Assumptions from_chars_dangling_exponent.

(** A complete exponent is read; and all ways to introduce it - e, E, and in
    Fortran mode d, D or nothing before a sign - are equivalent. *)
Definition exponent_intro (R : rules) (m sg : list Z) : Prop :=
  (exists l, m = [l] /\ exponent_letter R l) \/ (fortran R = true /\ m = [] /\ sg <> []).

Lemma intro_exponent R m sg ds rest : exponent_intro R m sg ->
  sg = [45] \/ sg = [43] \/ sg = [] -> all_digits ds -> ds <> [] -> not_at_digit rest ->
  exponent R (m ++ sg ++ ds ++ rest) (if match sg with [45] => true | _ => false end then - digits_value ds else digits_value ds) rest.
Proof.
  intros EI SG AD ND NR.
  assert (ES : exp_sign (sg ++ ds ++ rest) (match sg with [45] => true | _ => false end) (ds ++ rest)).
  { destruct SG as [->|[->| ->]]; [constructor|constructor|]. apply exp_nosign. destruct ds as [|d ds]; [congruence|].
    inversion AD; subst. cbn. apply digit_sign in H1. tauto. }
  eapply exponent_some; [|exact ES|repeat split; assumption|exact ND].
  destruct EI as [(l & -> & [(H & H')|(H & H')])|(H & -> & NS)].
  - apply mark_e; assumption.
  - apply mark_d; assumption.
  - cbn [app]. destruct SG as [->|[->| ->]]; [apply mark_sign; auto|apply mark_sign; auto|congruence].
Qed.

Lemma intro_head R m sg s : exponent_intro R m sg -> sg = [45] \/ sg = [43] \/ sg = [] ->
  exists ch l, m ++ sg ++ s = ch :: l /\ digit ch = false /\ In ch [101; 69; 100; 68; 43; 45].
Proof.
  intros [(l & -> & EL)|(H & -> & NS)] SG.
  - destruct (exponent_letter_not_digit _ _ EL) as (D & I0). exists l, (sg ++ s). auto.
  - destruct SG as [->|[->| ->]]; [| |congruence]; eexists; exists s; (split; [reflexivity|]); cbn; auto 8.
Qed.

Theorem from_chars_exponent_letters :
  forall (c : cfg) (u : uc) (t : ftype) (o : options) (a m m' sg ds rest : list Z)
         (neg : bool) (ip fp : list Z),
  good_text c u o (a ++ m ++ sg ++ ds ++ rest) -> good_text c u o (a ++ m' ++ sg ++ ds ++ rest) ->
  starts_at c o (a ++ m ++ sg ++ ds ++ rest) (a ++ m ++ sg ++ ds ++ rest) ->
  starts_at c o (a ++ m' ++ sg ++ ds ++ rest) (a ++ m' ++ sg ++ ds ++ rest) ->
  plain_point (rules_of c o) -> mantissa_text (rules_of c o) a neg ip fp ->
  sg = [45] \/ sg = [43] \/ sg = [] -> all_digits ds -> ds <> [] -> not_at_digit rest ->
  exponent_intro (rules_of c o) m sg -> exponent_intro (rules_of c o) m' sg ->
  exists b x, x <> InvalidArgument /\
    from_chars_float_advanced c u t (a ++ m ++ sg ++ ds ++ rest) o =
      Ok {| r_ptr := rest; r_ec := x; r_value := Some (with_sign (format_of t) neg b) |} /\
    from_chars_float_advanced c u t (a ++ m' ++ sg ++ ds ++ rest) o =
      Ok {| r_ptr := rest; r_ec := x; r_value := Some (with_sign (format_of t) neg b) |}.
Proof.
  intros c u t o a m m' sg ds rest neg ip fp G1 G2 SA1 SA2 PP MT SG AD ND NR EI1 EI2.
  assert (N : forall m0, exponent_intro (rules_of c o) m0 sg -> number (rules_of c o) (a ++ m0 ++ sg ++ ds ++ rest) neg ip fp
     (if match sg with [45] => true | _ => false end then - digits_value ds else digits_value ds) rest).
  { intros m0 EI. destruct (intro_head _ _ _ (ds ++ rest) EI SG) as (ch & l & EQ & D & I0).
    apply mantissa_number; try assumption; [rewrite EQ; cbn; congruence| |apply intro_exponent; assumption].
    rewrite EQ. intros E. change (ch = point (rules_of c o)) in E. subst ch. destruct PP as (_ & PP). contradiction. }
  destruct (float_same c t ip fp _ o u _ _ _ _ o u _ _ _ _ G1 SA1 (N m EI1) G2 SA2 (N m' EI2)) as (b & x & _ & E1 & E2).
  exists b, x. split; [|auto]. intros EX.
  destruct (from_chars_invalid_only c u t o _ _ _ G1 SA1 E1 EX) as (NN & _). exact (NN _ _ _ _ _ (N m EI1)).
Qed.
Print Assumptions from_chars_exponent_letters.

(** The hypotheses are met: with chars_format::fortran (flags fixed, scientific
    and Fortran) "2.5+3", "2.5d+3" and "2.5e+3" are 2500; with general
    "2.5e+" is 2.5; with fixed "2.5e3" is 2.5; with scientific "2.5" and "2.5e"
    are rejected. *)
Example flags_example :
  let fo := {| o_format := 69; o_decimal_point := 46; o_base := 10 |} in
  mantissa_text (rules_of cfg_x86_64 fo) [50; 46; 53] false [50] [53] /\
  exponent_intro (rules_of cfg_x86_64 fo) [] [43] /\ exponent_intro (rules_of cfg_x86_64 fo) [100] [43] /\
  plain_point (rules_of cfg_x86_64 fo) /\
  from_chars_float_advanced cfg_x86_64 Char_s F64 [50; 46; 53; 43; 51] fo =
    Ok {| r_ptr := []; r_ec := Success; r_value := Some 4657715973212602368 |} /\
  from_chars_float cfg_x86_64 Char_s F64 [50; 46; 53; 101; 43] 5 =
    Ok {| r_ptr := [101; 43]; r_ec := Success; r_value := Some 4612811918334230528 |} /\
  from_chars_float cfg_x86_64 Char_s F64 [50; 46; 53; 101; 51] 4 =
    Ok {| r_ptr := [101; 51]; r_ec := Success; r_value := Some 4612811918334230528 |} /\
  from_chars_float cfg_x86_64 Char_s F64 [50; 46; 53] 1 =
    Ok {| r_ptr := [50; 46; 53]; r_ec := InvalidArgument; r_value := None |} /\
  from_chars_float cfg_x86_64 Char_s F64 [50; 46; 53; 101] 1 =
    Ok {| r_ptr := [50; 46; 53; 101]; r_ec := InvalidArgument; r_value := None |}.
Proof.
  cbv zeta. split.
  { exists [], true, [46; 53]. split; [reflexivity|]. split; [right; left; auto|]. split; [repeat constructor|].
    split; [right; split; [reflexivity|split; [repeat constructor|reflexivity]]|]. cbn. discriminate. }
  split; [right; split; [reflexivity|split; [reflexivity|discriminate]]|].
  split; [left; exists 100; split; [reflexivity|right; split; [reflexivity|auto]]|].
  split; [split; [reflexivity|cbn; lia]|]. repeat split; vm_compute; reflexivity.
Qed.
