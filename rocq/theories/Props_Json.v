(** Property C09: JSON mode.  Statements use the entry point, SpecGrammar,
    SpecText (the grammar of RFC 8259), SpecApi and SpecFloat. *)
From Verif Require Import Machine Config Chars Format ParseNumber DecToBin FromChars WordLemmas
  Rounding ComputeFloat SpecFloat FloatBridge Pow10 SpecGrammar SpecApi SpecRel SpecText Scan ParseSpec Special
  SlowPath ManyDigits Saturate FloatMaster FloatApi FloatRel TextSpec Props_Pow10 Props_Float Props_Relations Props_Texts Props_Grammar.
From Coq Require Import QArith Qabs.
Open Scope Z_scope.

(** The grammar selected by the JSON flags is the one of RFC 8259. *)
Lemma json_text R p neg ip fp e :
  json R = true -> scientific R = true -> fixed R = true -> fortran R = false -> point R = 46 ->
  number_text R p neg ip fp e <-> json_number p neg ip fp e.
Proof.
  intros J SC FX FO PT. split.
  - intros (sg & hp & pt & ex & -> & ST & AI & FT & MO & ET). exists pt, ex. unfold mantissa_ok in MO. rewrite J in MO.
    destruct MO as (NE & LZ & HF). split; [|split; [|split]].
    + destruct ST as [(-> & ->)|[(-> & ->)|(-> & -> & _ & J')]]; [reflexivity|reflexivity|congruence].
    + destruct ip as [|d ds]; [congruence|]. inversion AI as [|? ? D AD]; subst.
      destruct (Z.eq_dec d 48) as [->|ND]; [left; rewrite (LZ ds eq_refl); reflexivity|].
      right. exists d, ds. apply digit_true in D. split; [reflexivity|]. split; [lia|exact AD].
    + destruct FT as [(-> & -> & ->)|(-> & AF & ->)]; [left; auto|right]. rewrite PT. auto.
    + destruct ET as [(-> & -> & _)|(m & es & ds & -> & AD & ND & ES & EM)]; [left; auto|right].
      destruct EM as [(_ & [-> | ->])|[(F & _)|(F & _)]]; try congruence;
        eexists; exists es, ds; (split; [reflexivity|]); auto.
  - intros (fr & ex & -> & JI & JF & JE). exists (if neg then [45] else []).
    assert (MI : all_digits ip /\ ip <> [] /\ forall l, ip = 48 :: l -> l = []).
    { destruct JI as [->|(d & ds & -> & D & AD)].
      - split; [repeat constructor|]. split; [discriminate|]. intros l E; injection E as <-. reflexivity.
      - split; [constructor; [apply digit_true; lia|exact AD]|]. split; [discriminate|]. intros l E. injection E as -> _. lia. }
    destruct MI as (AI & NE & LZ).
    assert (ST : sign_text R neg (if neg then [45] else [])) by (destruct neg; [left|right; left]; auto).
    assert (ET : exponent_text R e ex).
    { destruct JE as [(-> & ->)|(m & es & ds & -> & M & ND & AD & ES)]; [left; auto|right].
      exists [m], es, ds. split; [reflexivity|]. split; [exact AD|]. split; [exact ND|]. split; [exact ES|].
      left. split; [exact SC|]. destruct M as [-> | ->]; auto. }
    destruct JF as [(-> & ->)|(NF & AF & ->)].
    + exists false, [], ex. repeat split; try assumption; [left; auto|].
      unfold mantissa_ok. rewrite J. split; [exact NE|]. split; [exact LZ|discriminate].
    + exists true, (46 :: fp), ex. repeat split; try assumption; [right; rewrite PT; auto|].
      unfold mantissa_ok. rewrite J. split; [exact NE|]. split; [exact LZ|auto].
Qed.

(** What follows an accepted JSON number. *)
Lemma exponent_rest R s e rest : exponent R s e rest -> not_at_digit s -> not_at_digit rest.
Proof. intros H N. inversion H as [? ? ? ? ? ? ? ? (_ & _ & NR)| |]; subst; assumption. Qed.

Lemma json_rest R p rest neg ip fp e : json R = true -> fortran R = false -> plain_point R ->
  number R (p ++ rest) neg ip fp e rest ->
  not_at_digit rest /\ (Forall (fun ch => digit ch = true \/ ch = 45) p -> not_at (fun ch => ch = point R) rest).
Proof.
  intros J FO PP (s1 & s2 & hp & s3 & SG & (RI & AI & NI) & F & MO & EX).
  assert (N3 : not_at_digit s3) by (inversion F as [? ? ? (_ & _ & N2)|]; subst; assumption).
  split; [exact (exponent_rest _ _ _ _ EX N3)|]. intros FA.
  destruct (exponent_split _ _ _ _ EX) as (ex & E3 & ET).
  assert (SP : exists a, p ++ rest = a ++ s1) by (inversion SG; subst; [exists [45]|exists [43]|exists []]; reflexivity).
  destruct SP as (a & SP). inversion F as [s d r (E2 & A2 & N2)|? NP]; subst.
  - exfalso. rewrite ?app_comm_cons, ?app_assoc in SP. apply app_inv_tail in SP. subst p.
    apply Forall_app in FA. destruct FA as (FA & _). apply Forall_app in FA. destruct FA as (_ & FA).
    inversion FA as [|? ? [C|C] _]; subst; destruct PP as (P1 & P2); [congruence|]. apply P2. rewrite C. cbn. auto 8.
  - rewrite ?app_assoc in SP. apply app_inv_tail in SP. subst p.
    apply Forall_app in FA. destruct FA as (_ & FA).
    destruct (list_eq_dec Z.eq_dec ex []) as [->|NE]; [exact NP|exfalso].
    destruct ET as [(-> & _)|(m & es & ds & -> & AD & ND & ES & EM)]; [congruence|].
    destruct EM as [(_ & [-> | ->])|[(F' & _)|(F' & _)]]; try congruence;
      inversion FA as [|? ? [C|C] _]; subst; discriminate C.
Qed.

(** A format with the flags scientific, fixed, no_infnan and basic_json and
    without basic_fortran, such as chars_format::json, with '.' as decimal
    point; white space may be skipped, and the leading-plus flag may be set (it
    changes nothing). *)
Definition json_mode (o : options) : Prop :=
  Z.testbit (o_format o) 0 = true /\ Z.testbit (o_format o) 2 = true /\ Z.testbit (o_format o) 4 = true /\
  Z.testbit (o_format o) 5 = true /\ Z.testbit (o_format o) 6 = false /\ o_decimal_point o = 46.

Lemma json_mode_rules c o : json_mode o ->
  json (rules_of c o) = true /\ scientific (rules_of c o) = true /\ fixed (rules_of c o) = true /\
  fortran (rules_of c o) = false /\ point (rules_of c o) = 46 /\ allows_special o = false /\
  plain_point (rules_of c o) /\ usual_flags (rules_of c o).
Proof.
  intros (B0 & B2 & B4 & B5 & B6 & P). unfold rules_of, allows_special, plain_point, usual_flags. cbn [json scientific fixed fortran point].
  rewrite B0, B2, B4, B5, B6, P. repeat split; try reflexivity; cbn; [lia|auto].
Qed.

(** [s] is [p] followed by [rest], and [p] is the longest RFC 8259 number [s] starts with. *)
Definition longest_json (s p rest : list Z) : Prop :=
  s = p ++ rest /\
  forall p' rest' neg ip fp e, s = p' ++ rest' -> json_number p' neg ip fp e -> (length p' <= length p)%nat.

Lemma longest_json_eq c o s p rest : json_mode o ->
  longest_number (rules_of c o) s p rest <-> longest_json s p rest.
Proof.
  intros JM. destruct (json_mode_rules c o JM) as (J & SC & FX & FO & PT & _).
  split; intros (E & L); (split; [exact E|]); intros p' r' neg ip fp e E' N; apply (L p' r' neg ip fp e E');
    apply (json_text (rules_of c o)); assumption.
Qed.

(** An RFC 8259 number followed by something that does not start with a digit -
    nor, if the number has no fraction or exponent, with a point - is accepted
    with its value, and the end pointer is where the number ends. *)
Theorem from_chars_json_accepts :
  forall (c : cfg) (u : uc) (t : ftype) (o : options) (s s0 p rest : list Z)
         (neg : bool) (ip fp : list Z) (e : Z),
  good_text c u o s -> json_mode o -> starts_at c o s s0 ->
  json_number p neg ip fp e -> longest_json s0 p rest ->
  not_at_digit rest ->
  (Forall (fun ch => digit ch = true \/ ch = 45) p -> not_at (fun ch => ch = 46) rest) ->
  exponent_bounded s e ->
  exists b x,
    from_chars_float_advanced c u t s o =
      Ok {| r_ptr := rest; r_ec := x; r_value := Some (with_sign (format_of t) neg b) |} /\
    x <> InvalidArgument /\ nearest (format_of t) (number_value ip fp e) b /\
    (t <> F16 -> nearest_even (format_of t) (number_value ip fp e) b).
Proof.
  intros c u t o s s0 p rest neg ip fp e G JM SA JN LJ NDR NPR EB.
  destruct (json_mode_rules c o JM) as (J & SC & FX & FO & PT & _ & PP & UF).
  apply (longest_json_eq c o) in LJ; [|exact JM].
  apply (json_text (rules_of c o)) in JN; try assumption.
  destruct (number_accepts (rules_of c o) s0 p rest neg ip fp e PP UF (proj1 LJ) JN ltac:(rewrite PT; auto))
    as (neg' & ip' & fp' & e' & r & N).
  destruct (number_longest _ _ _ _ _ _ _ PP N) as (p' & NT' & LN').
  destruct (longest_unique _ _ _ _ _ _ _ _ _ _ _ _ _ _ PP JN LJ NT' LN') as (<- & <- & <- & <- & <- & <-).
  exact (accepted_number c u t o s s0 neg ip fp e rest G SA N EB).
Qed.
Print Assumptions from_chars_json_accepts.

(** Conversely everything that is accepted is of this form.  In particular no
    infinity, no NaN, no plus, no leading zero. *)
Theorem from_chars_json_only :
  forall (c : cfg) (u : uc) (t : ftype) (o : options) (s s0 rest : list Z) (x : ec) (v : option Z),
  good_text c u o s -> json_mode o -> starts_at c o s s0 ->
  from_chars_float_advanced c u t s o = Ok {| r_ptr := rest; r_ec := x; r_value := v |} ->
  x <> InvalidArgument ->
  exists p neg ip fp e, json_number p neg ip fp e /\ longest_json s0 p rest /\ not_at_digit rest /\
    (Forall (fun ch => digit ch = true \/ ch = 45) p -> not_at (fun ch => ch = 46) rest).
Proof.
  intros c u t o s s0 rest x v G JM SA E NI.
  destruct (json_mode_rules c o JM) as (J & SC & FX & FO & PT & AS & PP & UF).
  destruct (number_or_not c u o _ s0 G SA) as [(neg & ip & fp & e & r & N)|NN].
  - destruct (float_same c t ip fp e o u _ _ _ _ o u _ _ _ _ G SA N G SA N) as (b0 & x0 & _ & E0 & _).
    rewrite E0 in E. injection E as -> _ _.
    destruct (number_longest _ _ _ _ _ _ _ PP N) as (p & NT & LN). exists p, neg, ip, fp, e.
    split; [apply (json_text (rules_of c o)); assumption|]. split; [apply (longest_json_eq c o); assumption|].
    rewrite (proj1 LN) in N. rewrite <- PT. eapply json_rest; eassumption.
  - destruct (other_main c u t o s s0 G SA NN) as [(_ & E')|[(_ & _ & E')|(neg & k & r & AS' & _)]]; [| |congruence];
      rewrite E' in E; injection E as _ <- _; congruence.
Qed.
Print Assumptions from_chars_json_only.

(** For complete texts: accepted to the very end exactly if it is an RFC 8259 number. *)
Theorem from_chars_json_whole :
  forall (c : cfg) (u : uc) (t : ftype) (o : options) (s s0 : list Z),
  good_text c u o s -> json_mode o -> starts_at c o s s0 ->
  (exists x v, from_chars_float_advanced c u t s o = Ok {| r_ptr := []; r_ec := x; r_value := v |} /\ x <> InvalidArgument) <->
  (exists neg ip fp e, json_number s0 neg ip fp e).
Proof.
  intros c u t o s s0 G JM SA. split.
  - intros (x & v & E & NI).
    destruct (from_chars_json_only c u t o s s0 [] x v G JM SA E NI) as (p & neg & ip & fp & e & JN & (EP & _) & _).
    rewrite app_nil_r in EP. subst p. eauto.
  - intros (neg & ip & fp & e & JN).
    destruct (json_mode_rules c o JM) as (J & SC & FX & FO & PT & AS & PP & UF).
    apply (json_text (rules_of c o)) in JN; try assumption.
    pose proof (number_text_number _ _ _ _ _ _ PP JN) as N.
    destruct (float_same c t ip fp e o u _ _ _ _ o u _ _ _ _ G SA N G SA N) as (b0 & x0 & _ & E0 & _).
    eexists; eexists; split; [exact E0|]. intros EX.
    destruct (from_chars_invalid_only c u t o s s0 _ G SA E0 EX) as (NN & _). exact (NN _ _ _ _ _ N).
Qed.
Print Assumptions from_chars_json_whole.

(** The prefix rule is stricter than "starts with an RFC 8259 number": "01" and
    "1." are rejected although "0" and "1" are numbers. *)
Theorem from_chars_json_prefix_refuted :
  json_number [48] false [48] [] 0 /\ json_number [49] false [49] [] 0 /\
  from_chars_float cfg_x86_64 Char_s F64 [48; 49] 53 =
    Ok {| r_ptr := [48; 49]; r_ec := InvalidArgument; r_value := None |} /\
  from_chars_float cfg_x86_64 Char_s F64 [49; 46] 53 =
    Ok {| r_ptr := [49; 46]; r_ec := InvalidArgument; r_value := None |}.
Proof.
  split; [|split; [|split; vm_compute; reflexivity]]; exists [], []; (split; [reflexivity|]);
    (split; [|split; left; auto]); [left; reflexivity|]. right. exists 49, []. split; [reflexivity|]. split; [lia|constructor].
Qed.
Print Assumptions from_chars_json_prefix_refuted.

(** The same for calls with the preset chars_format::json, and with
    chars_format::json_or_infnan, which accepts the spellings of infinity and NaN
    as well: the whole text (after white space, in builds that skip it) is
    accepted exactly if it is a JSON number, or one of these spellings. *)
Theorem from_chars_json_presets :
  forall (c : cfg) (u : uc) (t : ftype) (b : Z) (s s0 : list Z),
  let accepted f := exists x v,
    from_chars_float c u t s f = Ok {| r_ptr := []; r_ec := x; r_value := v |} /\ x <> InvalidArgument in
  let opts f := {| o_format := f; o_decimal_point := 46; o_base := b |} in
  good_text c u (opts f_json) s -> starts_at c (opts f_json) s s0 ->
  (accepted f_json <-> exists neg ip fp e, json_number s0 neg ip fp e) /\
  (accepted f_json_or_infnan <->
     (exists neg ip fp e, json_number s0 neg ip fp e) \/ exists neg k, special (macro_leading_plus c) s0 neg k []).
Proof.
  intros c u t b s s0. cbv zeta. intros G SA.
  set (o := {| o_format := f_json; o_decimal_point := 46; o_base := 10 |}).
  set (o' := {| o_format := f_json_or_infnan; o_decimal_point := 46; o_base := 10 |}).
  assert (JM : json_mode o) by (repeat split; reflexivity).
  assert (G1 : good_text c u o s) by exact G. assert (G2 : good_text c u o' s) by exact G.
  assert (SA1 : starts_at c o s s0) by exact SA. assert (SA2 : starts_at c o' s s0) by exact SA.
  split; [exact (from_chars_json_whole c u t o s s0 G1 JM SA1)|].
  change (from_chars_float c u t s f_json_or_infnan) with (from_chars_float_advanced c u t s o').
  assert (RU : rules_of c o' = rules_of c o) by reflexivity.
  rewrite <- (from_chars_json_whole c u t o s s0 G1 JM SA1).
  destruct (number_or_not c u o _ s0 G1 SA1) as [(neg & ip & fp & e & r & N)|NN].
  - destruct (float_same c t ip fp e o u _ _ _ _ o' u _ _ _ _ G1 SA1 N G2 SA2 N) as (b0 & x0 & _ & E0 & E1).
    rewrite E0, E1; split.
    + intros (x & v & E & NI). left. injection E as -> <- <-. eauto.
    + intros [(x & v & E & NI)|(n & k & SP)]; [injection E as -> <- <-; eauto|].
      destruct (special_not_number _ _ _ _ _ _ SP _ _ _ _ _ N).
  - assert (NN' := NN). rewrite <- RU in NN'.
    destruct (other_main c u t o s s0 G1 SA1 NN) as [(_ & E1)|[(AS & _)|(neg & k & r & AS & _)]]; [|discriminate AS|discriminate AS].
    rewrite E1. destruct (other_main c u t o' s s0 G2 SA2 NN') as [(AS & _)|[(_ & NS & E2)|(neg & k & r & _ & SP & E2)]]; [discriminate AS| |]; rewrite E2.
      * split; [intros (x & v & E & NI); congruence|]. intros [(x & v & E & NI)|(n & k & SP)]; [congruence|]. destruct (NS _ _ _ SP).
      * split.
        -- intros (x & v & E & NI). right. injection E as -> _ _. exists neg, k. exact SP.
        -- intros [(x & v & E & NI)|(n & k' & SP')]; [congruence|].
           destruct (special_unique _ _ _ _ _ _ _ _ SP SP') as (<- & <- & ->). eexists; eexists. split; [reflexivity|discriminate].
Qed.
Print Assumptions from_chars_json_presets.

(** "-10.5E+2," meets the hypotheses of [from_chars_json_accepts]. *)
Example json_example :
  json_mode json_options /\ json_number [45; 49; 48; 46; 53; 69; 43; 50] true [49; 48] [53] 2 /\
  from_chars_float_advanced cfg_x86_64 Char_s F64 [45; 49; 48; 46; 53; 69; 43; 50; 44] json_options =
    Ok {| r_ptr := [44]; r_ec := Success; r_value := Some 13875704801137786880 |}.
Proof.
  split; [repeat split; reflexivity|]. split; [|vm_compute; reflexivity].
  exists [46; 53], [69; 43; 50]. split; [reflexivity|]. split; [right; exists 49, [48]; split; [reflexivity|split; [lia|repeat constructor]]|].
  split; [right; split; [discriminate|split; [repeat constructor|reflexivity]]|].
  right. exists 69, [43], [50]. split; [reflexivity|]. split; [auto|]. split; [discriminate|]. split; [repeat constructor|]. right. auto.
Qed.
