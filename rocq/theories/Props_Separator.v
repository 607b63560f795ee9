(** Property C11: decimal separators. *)
From Verif Require Import Machine Config Chars Format ParseNumber DecToBin FromChars WordLemmas
  Rounding ComputeFloat SpecFloat FloatBridge Pow10 SpecGrammar SpecApi SpecRel SpecText Scan ParseSpec Special
  SlowPath ManyDigits Saturate FloatMaster FloatApi FloatRel TextSpec Props_Pow10 Props_Float Props_Relations Props_Texts.
From Coq Require Import QArith Qabs.
Open Scope Z_scope.

Section Swap.
Variable d : Z.
Hypothesis ND : neutral d.
Let sw (ch : Z) : Z := if ch =? d then 46 else if ch =? 46 then d else ch.

Lemma exchange_sw s : exchange d 46 s = map sw s. Proof using. reflexivity. Qed.

Lemma sw_inv ch : sw (sw ch) = ch.
Proof using.
  unfold sw. destruct (ch =? d) eqn:E1.
  - apply Z.eqb_eq in E1. subst ch. destruct (46 =? d) eqn:E2; [apply Z.eqb_eq in E2; exact E2|reflexivity].
  - destruct (ch =? 46) eqn:E2; [rewrite Z.eqb_refl; apply Z.eqb_eq in E2; congruence|]. rewrite E1, E2. reflexivity.
Qed.
Lemma map_sw_inv s : map sw (map sw s) = s.
Proof using. rewrite map_map. rewrite <- (map_id s) at 2. apply map_ext. exact sw_inv. Qed.

Lemma sw_fixed k : k <> d -> k <> 46 -> forall ch, sw ch = k <-> ch = k.
Proof using.
  intros H1 H2 ch. split.
  - intros E. rewrite <- (sw_inv ch), E. unfold sw.
    apply Z.eqb_neq in H1, H2. rewrite H1, H2. reflexivity.
  - intros ->. unfold sw. apply Z.eqb_neq in H1, H2. rewrite H1, H2. reflexivity.
Qed.

Lemma neutral_digit : digit d = false.
Proof using ND.
  destruct ND as (H & _). unfold nchar in H. destruct (digit d); [|reflexivity]. rewrite !orb_true_r in H. discriminate H.
Qed.
Lemma neutral_not k : nchar k = true \/ space k = true \/ In k [43; 45; 40; 41] -> k <> d.
Proof using ND. destruct ND as (H1 & H2 & H3). intros [H|[H|H]] ->; congruence || contradiction. Qed.

(** Any test that is false on both characters. *)
Lemma sw_test (P : Z -> bool) : P d = false -> P 46 = false -> forall ch, P (sw ch) = P ch.
Proof using.
  intros H1 H2 ch. unfold sw. destruct (ch =? d) eqn:E; [apply Z.eqb_eq in E; congruence|].
  destruct (ch =? 46) eqn:E2; [apply Z.eqb_eq in E2; congruence|reflexivity].
Qed.
Lemma sw_digit ch : digit (sw ch) = digit ch.
Proof using ND. apply sw_test; [exact neutral_digit|reflexivity]. Qed.
Lemma sw_nchar ch : nchar (sw ch) = nchar ch.
Proof using ND. apply sw_test; [apply ND|reflexivity]. Qed.
Lemma sw_space ch : space (sw ch) = space ch.
Proof using ND. apply sw_test; [apply ND|reflexivity]. Qed.
Lemma sw_same P l : (forall ch, P ch = true -> ch <> d /\ ch <> 46) -> Forall (fun ch => P ch = true) l -> map sw l = l.
Proof using.
  intros HP. induction 1 as [|ch l H _ IH]; [reflexivity|]. cbn. rewrite IH. f_equal. apply HP in H.
  apply sw_fixed; tauto.
Qed.
Lemma sw_digits l : all_digits l -> map sw l = l.
Proof using ND. apply (sw_same digit). intros ch H. split; intros ->; [rewrite neutral_digit in H|]; discriminate H. Qed.
Lemma sw_nchars l : Forall (fun ch => nchar ch = true) l -> map sw l = l.
Proof using ND. apply (sw_same nchar). intros ch H. split; intros ->; [destruct ND; congruence|]; discriminate H. Qed.
Lemma sw_spaces l : Forall (fun ch => space ch = true) l -> map sw l = l.
Proof using ND. apply (sw_same space). intros ch H. split; intros ->; [destruct ND as (_ & ? & _); congruence|]; discriminate H. Qed.

Lemma sw_45 ch : sw ch = 45 <-> ch = 45.
Proof using ND. apply sw_fixed; [apply neutral_not; cbn; auto 8|discriminate]. Qed.
Lemma sw_43 ch : sw ch = 43 <-> ch = 43.
Proof using ND. apply sw_fixed; [apply neutral_not; cbn; auto 8|discriminate]. Qed.
Lemma sw_nch k ch : nchar k = true -> sw ch = k <-> ch = k.
Proof using ND. intros H. apply sw_fixed; [apply neutral_not; auto|intros ->; discriminate H]. Qed.

Lemma not_at_sw (P Q : Z -> Prop) s : (forall ch, Q (sw ch) -> P ch) -> not_at P s -> not_at Q (map sw s).
Proof using. intros H. destruct s as [|ch s]; cbn; [auto|]. intros N HQ. apply N, H, HQ. Qed.
Lemma not_at_digit_sw s : not_at_digit s -> not_at_digit (map sw s).
Proof using ND. apply not_at_sw. intros ch. rewrite sw_digit. auto. Qed.

Lemma run_sw s ds rest : run s ds rest -> run (map sw s) ds (map sw rest).
Proof using ND.
  intros (-> & A & N). rewrite map_app, (sw_digits ds A). repeat split; [exact A|apply not_at_digit_sw; exact N].
Qed.

Variables R R' : rules.
Hypothesis R1 : leading_plus R' = leading_plus R.
Hypothesis R2 : json R' = json R.
Hypothesis R3 : scientific R' = scientific R.
Hypothesis R4 : fixed R' = fixed R.
Hypothesis R5 : fortran R' = fortran R.
Hypothesis R6 : (point R = d /\ point R' = 46) \/ (point R = 46 /\ point R' = d).

Lemma point_sw ch : sw ch = point R' <-> ch = point R.
Proof using R6.
  assert (S1 : sw d = 46) by (unfold sw; rewrite Z.eqb_refl; reflexivity).
  assert (S2 : sw 46 = d) by (rewrite <- S1; apply sw_inv).
  destruct R6 as [(-> & ->)|(-> & ->)]; split; intros H; [rewrite <- (sw_inv ch), H; exact S2|rewrite H; exact S1
    |rewrite <- (sw_inv ch), H; exact S1|rewrite H; exact S2].
Qed.

Lemma signed_sw s neg s1 : signed R s neg s1 -> signed R' (map sw s) neg (map sw s1).
Proof using ND R1 R2.
  intros H. inversion H; subst; cbn [map].
  - rewrite (proj2 (sw_45 45) eq_refl). constructor.
  - rewrite (proj2 (sw_43 43) eq_refl). constructor; congruence.
  - constructor. revert H0. apply not_at_sw. intros ch. rewrite sw_45, sw_43, R1, R2. auto.
Qed.

Lemma fraction_sw s hp fp rest : fraction R s hp fp rest -> fraction R' (map sw s) hp fp (map sw rest).
Proof using ND R6.
  intros H. inversion H as [s' ds r RN|s' N]; subst.
  - cbn [map]. rewrite (proj2 (point_sw (point R)) eq_refl). constructor. apply run_sw. exact RN.
  - constructor. revert N. apply not_at_sw. intros ch. apply point_sw.
Qed.

Lemma exp_mark_sw s s1 : exp_mark R s s1 -> exp_mark R' (map sw s) (map sw s1).
Proof using ND R3 R5.
  intros H. inversion H as [ch l SC C|ch l FO C|ch l FO C]; subst; cbn [map].
  - apply mark_e; [congruence|]. rewrite !sw_nch by reflexivity. exact C.
  - apply mark_d; [congruence|]. rewrite !sw_nch by reflexivity. exact C.
  - apply mark_sign; [congruence|]. rewrite sw_45, sw_43. exact C.
Qed.
Lemma exp_mark_sw' s s1 : exp_mark R' (map sw s) s1 -> exists s2, exp_mark R s s2.
Proof using ND R3 R5.
  intros H. destruct s as [|ch s]; [inversion H|]. cbn in H. inversion H as [ch' l SC C|ch' l FO C|ch' l FO C]; subst.
  - exists s. apply mark_e; [congruence|]. rewrite !sw_nch in C by reflexivity. exact C.
  - exists s. apply mark_d; [congruence|]. rewrite !sw_nch in C by reflexivity. exact C.
  - exists (ch :: s). apply mark_sign; [congruence|]. rewrite sw_45, sw_43 in C. exact C.
Qed.
Lemma exp_sign_sw s neg s1 : exp_sign s neg s1 -> exp_sign (map sw s) neg (map sw s1).
Proof using ND.
  intros H. inversion H; subst; cbn [map].
  - rewrite (proj2 (sw_45 45) eq_refl). constructor.
  - rewrite (proj2 (sw_43 43) eq_refl). constructor; congruence.
  - constructor. revert H0. apply not_at_sw. intros ch. rewrite sw_45, sw_43. auto.
Qed.
Lemma exponent_sw s e rest : exponent R s e rest -> exponent R' (map sw s) e (map sw rest).
Proof using ND R3 R4 R5.
  intros H. inversion H as [? s1 neg s2 ds ? EM ES RN NE|? NM F|? s1 neg s2 EM ES N F]; subst.
  - eapply exponent_some; [apply exp_mark_sw; exact EM|apply exp_sign_sw; exact ES|apply run_sw; exact RN|exact NE].
  - apply exponent_none; [|rewrite R3, R4; exact F]. intros s1 M. destruct (exp_mark_sw' _ _ M) as (s2 & M'). exact (NM _ M').
  - eapply exponent_dangling; [apply exp_mark_sw; exact EM|apply exp_sign_sw; exact ES|apply not_at_digit_sw; exact N|congruence].
Qed.

Lemma number_sw s neg ip fp e rest : number R s neg ip fp e rest -> number R' (map sw s) neg ip fp e (map sw rest).
Proof using ND R1 R2 R3 R4 R5 R6.
  intros (s1 & s2 & hp & s3 & SG & RN & F & MO & EX). exists (map sw s1), (map sw s2), hp, (map sw s3).
  split; [apply signed_sw; exact SG|]. split; [apply run_sw; exact RN|]. split; [apply fraction_sw; exact F|].
  split; [unfold mantissa_ok in *; rewrite R2; exact MO|apply exponent_sw; exact EX].
Qed.

Lemma same_letters_sw w s rest : Forall (fun x => nchar x = true /\ nchar (x - 32) = true) w ->
  same_letters w s rest -> same_letters w (map sw s) (map sw rest).
Proof using ND.
  intros W. induction 1 as [s|x w ch s rest C SL IH]; [constructor|]. inversion W as [|? ? (W1 & W2) W3]; subst. cbn [map].
  constructor; [|exact (IH W3)]. rewrite !sw_nch by assumption. exact C.
Qed.
Lemma special_sign_sw plus s neg s1 : special_sign plus s neg s1 -> special_sign plus (map sw s) neg (map sw s1).
Proof using ND.
  intros H. inversion H; subst; cbn [map].
  - rewrite (proj2 (sw_45 45) eq_refl). constructor.
  - rewrite (proj2 (sw_43 43) eq_refl). constructor; reflexivity.
  - constructor. revert H0. apply not_at_sw. intros ch. rewrite sw_45, sw_43. auto.
Qed.
Lemma sw_40 : sw 40 = 40. Proof using ND. apply sw_fixed; [apply neutral_not; cbn; auto 8|discriminate|reflexivity]. Qed.
Lemma sw_41 : sw 41 = 41. Proof using ND. apply sw_fixed; [apply neutral_not; cbn; auto 8|discriminate|reflexivity]. Qed.
Lemma payload_sw s rest : payload s rest -> payload (map sw s) (map sw rest).
Proof using ND.
  intros H. inversion H as [l r A|? N]; subst.
  - cbn [map]. rewrite map_app. cbn [map]. rewrite sw_40, sw_41, (sw_nchars l A). constructor. exact A.
  - constructor. intros l r A E. apply (N l (map sw r) A). rewrite <- (map_sw_inv rest), E. cbn [map]. rewrite map_app.
    cbn [map]. rewrite sw_40, sw_41, (sw_nchars l A). reflexivity.
Qed.
Lemma special_sw plus s neg k rest : special plus s neg k rest -> special plus (map sw s) neg k (map sw rest).
Proof using ND.
  assert (W1 : Forall (fun x => nchar x = true /\ nchar (x - 32) = true) word_nan) by (repeat constructor).
  assert (W2 : Forall (fun x => nchar x = true /\ nchar (x - 32) = true) word_inf) by (repeat constructor).
  assert (W3 : Forall (fun x => nchar x = true /\ nchar (x - 32) = true) word_inity) by (repeat constructor).
  intros H. inversion H as [? ? s1 s2 ? SS SL PL|? ? s1 s2 ? SS SL SL2|? ? s1 ? SS SL NI]; subst.
  - eapply special_nan; [apply special_sign_sw; exact SS|apply same_letters_sw; eassumption|apply payload_sw; exact PL].
  - eapply special_infinity; [apply special_sign_sw; exact SS|apply same_letters_sw; eassumption|apply same_letters_sw; eassumption].
  - eapply special_inf; [apply special_sign_sw; exact SS|apply same_letters_sw; eassumption|].
    intros r SL2. apply (NI (map sw r)). rewrite <- (map_sw_inv rest). apply same_letters_sw; assumption.
Qed.
End Swap.

(** The options with another decimal point. *)
Definition with_point (o : options) (d : Z) : options :=
  {| o_format := o_format o; o_decimal_point := d; o_base := o_base o |}.

Lemma starts_exchange d c o s s0 : neutral d -> starts_at c o s s0 ->
  starts_at c (with_point o 46) (exchange d 46 s) (exchange d 46 s0).
Proof.
  intros ND. unfold starts_at. change (skips_space c (with_point o 46)) with (skips_space c o).
  destruct (skips_space c o); [|intros ->; reflexivity].
  intros (ws & -> & W & N). exists ws. unfold exchange. rewrite map_app. split; [|split; [exact W|]].
  - f_equal. apply (sw_spaces d ND). exact W.
  - revert N. apply not_at_sw. intros ch H. rewrite (sw_space d ND) in H. exact H.
Qed.

Theorem from_chars_separator :
  forall (c : cfg) (u : uc) (t : ftype) (o : options) (s : list Z),
  neutral (o_decimal_point o) ->
  good_text c u o s -> good_text c u (with_point o 46) (exchange (o_decimal_point o) 46 s) ->
  exists rest x v,
    from_chars_float_advanced c u t s o = Ok {| r_ptr := rest; r_ec := x; r_value := v |} /\
    from_chars_float_advanced c u t (exchange (o_decimal_point o) 46 s) (with_point o 46) =
      Ok {| r_ptr := exchange (o_decimal_point o) 46 rest; r_ec := x; r_value := v |}.
Proof.
  intros c u t o s NE G1 G2. set (d := o_decimal_point o) in *.
  destruct (starts_exists c o s) as (s0 & SA). pose proof (starts_exchange d c o s s0 NE SA) as SA'.
  set (o' := with_point o 46) in *.
  assert (SWN : forall neg ip fp e r, number (rules_of c o) s0 neg ip fp e r ->
     number (rules_of c o') (exchange d 46 s0) neg ip fp e (exchange d 46 r)).
  { intros neg ip fp e r. unfold exchange. apply (number_sw d NE); try reflexivity. left. split; reflexivity. }
  assert (SWB : forall neg ip fp e r, number (rules_of c o') (exchange d 46 s0) neg ip fp e r ->
     number (rules_of c o) s0 neg ip fp e (exchange d 46 r)).
  { intros neg ip fp e r N. rewrite <- (map_sw_inv d s0). revert N. unfold exchange. apply (number_sw d NE); try reflexivity. right. split; reflexivity. }
  destruct (number_or_not c u o _ s0 G1 SA) as [(neg & ip & fp & e & r & N)|NN].
  - destruct (float_same c t ip fp e o u _ _ _ _ o' u _ _ _ _ G1 SA N G2 SA' (SWN _ _ _ _ _ N)) as (b & x & _ & E1 & E2).
    eexists; eexists; eexists; split; [exact E1|exact E2].
  - assert (NN' : forall neg ip fp e rest, ~ number (rules_of c o') (exchange d 46 s0) neg ip fp e rest).
    { intros neg ip fp e r N. exact (NN _ _ _ _ _ (SWB _ _ _ _ _ N)). }
    destruct (other_main c u t o s s0 G1 SA NN) as [(A1 & E1)|[(A1 & NS1 & E1)|(neg1 & k1 & r1 & A1 & SP1 & E1)]];
    destruct (other_main c u t o' _ _ G2 SA' NN') as [(A2 & E2)|[(A2 & NS2 & E2)|(neg2 & k2 & r2 & A2 & SP2 & E2)]];
      try (change (allows_special o') with (allows_special o) in A2; congruence).
    + eexists; eexists; eexists; split; [exact E1|exact E2].
    + eexists; eexists; eexists; split; [exact E1|exact E2].
    + exfalso. apply (NS1 neg2 k2 (exchange d 46 r2)). rewrite <- (map_sw_inv d s0). apply (special_sw d NE). exact SP2.
    + exfalso. apply (NS2 neg1 k1 (exchange d 46 r1)). apply (special_sw d NE). exact SP1.
    + pose proof (special_sw d NE _ _ _ _ _ SP1) as SP1'. change (leading_plus (rules_of c o')) with (leading_plus (rules_of c o)) in SP2.
      destruct (special_unique _ _ _ _ _ _ _ _ SP1' SP2) as (<- & <- & <-).
      eexists; eexists; eexists; split; [exact E1|exact E2].
Qed.
Print Assumptions from_chars_separator.

(** "1,5.x" with a comma, and its exchanged text "1.5,x" with a point. *)
Example separator_example :
  let o := {| o_format := 5; o_decimal_point := 44; o_base := 10 |} in
  neutral (o_decimal_point o) /\ good_text cfg_x86_64 Char_s o [49; 44; 53; 46; 120] /\
  exchange 44 46 [49; 44; 53; 46; 120] = [49; 46; 53; 44; 120] /\
  from_chars_float_advanced cfg_x86_64 Char_s F64 [49; 44; 53; 46; 120] o =
    Ok {| r_ptr := [46; 120]; r_ec := Success; r_value := Some 4609434218613702656 |}.
Proof.
  cbv zeta. split; [split; [reflexivity|split; [reflexivity|cbn; lia]]|]. split.
  - split; [repeat constructor; cbn; lia|]. split; [discriminate|]. split; [cbn; lia|reflexivity].
  - split; [reflexivity|vm_compute; reflexivity].
Qed.

(** The separator must not be a digit: with '5' the integer "5" followed by
    nineteen zeros is read as 5*10^19 mod 2^64 = 13106511852580896768 instead of
    5*10^19, which is what it is with any separator that does not occur in it. *)
Theorem from_chars_digit_separator_refuted :
  let o := {| o_format := 5; o_decimal_point := 53; o_base := 10 |} in
  from_chars_float_advanced cfg_x86_64 Char_s F64 (53 :: repeat 48 19) o =
    Ok {| r_ptr := []; r_ec := Success; r_value := Some 4892805259687506176 |} /\
  (magnitude (format_of F64) 4892805259687506176 == inject_Z 13106511852580896768)%Q /\
  from_chars_float_advanced cfg_x86_64 Char_s F64 (53 :: repeat 48 19) general =
    Ok {| r_ptr := []; r_ec := Success; r_value := Some 4901516310576729152 |} /\
  (magnitude (format_of F64) 4901516310576729152 == inject_Z 50000000000000000000)%Q.
Proof. cbv zeta. repeat split; vm_compute; reflexivity. Qed.
Print Assumptions from_chars_digit_separator_refuted.
