(** The greedy grammar SpecGrammar.number and the plain grammar SpecText agree. *)
From Verif Require Import Machine Config Chars Format ParseNumber SpecFloat SpecGrammar SpecRel SpecText Scan ParseSpec FloatRel.
Open Scope Z_scope.

Lemma digit_sign ch : digit ch = true -> ch <> 45 /\ ch <> 43 /\ ch <> 101 /\ ch <> 69 /\ ch <> 100 /\ ch <> 68.
Proof. intros H. apply digit_true in H. lia. Qed.

(** What starts the text after the sign. *)
Lemma mantissa_head R ip hp fp pt ex : plain_point R -> all_digits ip -> fraction_text R hp fp pt -> mantissa_ok R ip hp fp ->
  exists ch l, ip ++ pt ++ ex = ch :: l /\ (digit ch = true \/ ch = point R).
Proof.
  intros PP AI FT MO. destruct ip as [|d ip].
  - destruct FT as [(-> & -> & ->)|(-> & AF & ->)].
    + exfalso. unfold mantissa_ok in MO. destruct (json R); [destruct MO as (MO & _)|]; apply MO; reflexivity.
    + exists (point R), (fp ++ ex). split; [reflexivity|right; reflexivity].
  - inversion AI; subst. exists d, (ip ++ pt ++ ex). split; [reflexivity|left; assumption].
Qed.

Lemma mantissa_head_sign R ch : plain_point R -> digit ch = true \/ ch = point R -> ch <> 45 /\ ch <> 43.
Proof.
  intros (_ & PP) [H| ->]; [apply digit_sign in H; tauto|]. cbn in PP. split; intros E; apply PP; rewrite E; tauto.
Qed.

(** The exponent text starts with a mark. *)
Lemma exponent_text_mark R e ex rest : exponent_text R e ex -> ex <> [] ->
  exists s1 neg s2 ds, exp_mark R (ex ++ rest) s1 /\ exp_sign s1 neg s2 /\ s2 = ds ++ rest /\ all_digits ds /\ ds <> [] /\
    e = (if neg then - digits_value ds else digits_value ds).
Proof.
  intros [(-> & _)|(m & sg & ds & -> & AD & ND & ES & EM)] NE; [congruence|].
  assert (SG : exists neg, exp_sign ((sg ++ ds) ++ rest) neg (ds ++ rest) /\ e = (if neg then - digits_value ds else digits_value ds)).
  { destruct ES as [(-> & ->)|([-> | ->] & ->)].
    - exists true. split; [constructor|reflexivity].
    - exists false. split; [|reflexivity]. constructor. destruct ds as [|d ds]; [congruence|]. cbn. inversion AD; subst.
      pose proof (digit_sign d). tauto.
    - exists false. split; [constructor|reflexivity]. }
  destruct SG as (neg & SG & EE). rewrite <- app_assoc.
  exists ((sg ++ ds) ++ rest), neg, (ds ++ rest), ds. split; [|tauto].
  destruct EM as [(F & [-> | ->])|[(F & [-> | ->])|(F & -> & NS)]].
  - apply mark_e; auto.
  - apply mark_e; auto.
  - apply mark_d; auto.
  - apply mark_d; auto.
  - cbn [app]. destruct ES as [(-> & _)|([-> | ->] & _)]; [|congruence|]; apply mark_sign; auto.
Qed.

Lemma exponent_text_head R e ex : exponent_text R e ex -> ex <> [] ->
  exists ch l, ex = ch :: l /\ In ch [101; 69; 100; 68; 43; 45].
Proof.
  intros H NE. destruct (exponent_text_mark R e ex [] H NE) as (s1 & neg & s2 & ds & M & _). rewrite app_nil_r in M.
  inversion M; subst; eexists; eexists; (split; [reflexivity|]); cbn; intuition.
Qed.

(** ** A complete number, read by itself. *)
Lemma exponent_text_exponent R e ex rest : exponent_text R e ex -> ex <> [] -> not_at_digit rest ->
  exponent R (ex ++ rest) e rest.
Proof.
  intros H NE ND. destruct (exponent_text_mark R e ex rest H NE) as (s1 & neg & s2 & ds & M & S & -> & AD & NN & ->).
  eapply exponent_some; try eassumption. repeat split; assumption.
Qed.

Lemma not_mark_nil R : forall s1, ~ exp_mark R [] s1.
Proof. intros s1 M. inversion M. Qed.

Lemma exponent_text_alone R e ex : exponent_text R e ex -> exponent R ex e [].
Proof.
  intros H. destruct (list_eq_dec Z.eq_dec ex []) as [->|NE].
  - destruct H as [(_ & -> & F)|(m & sg & ds & E & _ & ND & _)].
    + apply exponent_none; [apply not_mark_nil|exact F].
    + exfalso. symmetry in E. apply app_eq_nil in E. destruct E as (_ & E). apply app_eq_nil in E. destruct E as (_ & E). congruence.
  - rewrite <- (app_nil_r ex) at 1. apply exponent_text_exponent; [exact H|exact NE|exact I].
Qed.

Lemma exponent_text_not_digit R e ex : exponent_text R e ex -> not_at_digit ex.
Proof.
  intros H. destruct (list_eq_dec Z.eq_dec ex []) as [->|NE]; [exact I|].
  destruct (exponent_text_head R e ex H NE) as (ch & l & -> & I0). cbn. intros D. apply digit_sign in D. cbn in I0. intuition.
Qed.

Theorem number_text_number R p neg ip fp e : plain_point R -> number_text R p neg ip fp e -> number R p neg ip fp e [].
Proof.
  intros PP (sg & hp & pt & ex & -> & ST & AI & FT & MO & ET).
  exists (ip ++ pt ++ ex), (pt ++ ex), hp, ex.
  destruct (mantissa_head R ip hp fp pt ex PP AI FT MO) as (ch & l & EH & CH).
  destruct (mantissa_head_sign R ch PP CH) as (H1 & H2).
  pose proof (exponent_text_not_digit R e ex ET) as NDE.
  assert (NDP : not_at_digit (pt ++ ex)).
  { destruct FT as [(_ & _ & ->)|(_ & _ & ->)]; [exact NDE|]. cbn. destruct PP as (PP & _). congruence. }
  split.
  { destruct ST as [(-> & ->)|[(-> & ->)|(-> & -> & L & J)]]; [constructor| |constructor; assumption].
    cbn [app]. constructor. rewrite EH. cbn. tauto. }
  split; [repeat split; assumption|]. split.
  { destruct FT as [(-> & -> & ->)|(-> & AF & ->)].
    - cbn [app]. apply fraction_none. destruct (list_eq_dec Z.eq_dec ex []) as [->|NE]; [exact I|].
      destruct (exponent_text_head R e ex ET NE) as (c0 & l0 & -> & I0). cbn. intros ->. destruct PP as (_ & PP). contradiction.
    - cbn [app]. apply fraction_some. repeat split; assumption. }
  split; [exact MO|apply exponent_text_alone; exact ET].
Qed.

(** ** The number read from a text is a complete number. *)
Lemma exponent_split R s e rest : exponent R s e rest -> exists ex, s = ex ++ rest /\ exponent_text R e ex.
Proof.
  intros H. destruct H as [s s1 neg s2 ds rest EM ES (E2 & A & N) ND|s NM F|s s1 neg s2 EM ES N F].
  - subst s2.
    assert (E1 : exists sg, s1 = sg ++ ds ++ rest /\
      ((sg = [45] /\ neg = true) \/ ((sg = [] \/ sg = [43]) /\ neg = false))).
    { inversion ES; subst; [exists [45]|exists [43]|exists []]; auto 6. }
    destruct E1 as (sg & -> & SG).
    assert (EE : (sg = [45] /\ (if neg then - digits_value ds else digits_value ds) = - digits_value ds) \/
      ((sg = [] \/ sg = [43]) /\ (if neg then - digits_value ds else digits_value ds) = digits_value ds)).
    { destruct SG as [(-> & ->)|(SG & ->)]; auto. }
    inversion EM as [ch ? F C|ch ? F C|ch ? F C]; subst.
    + exists ([ch] ++ sg ++ ds). split; [cbn; rewrite <- app_assoc; reflexivity|]. right. exists [ch], sg, ds.
      repeat (split; [solve [reflexivity|assumption]|]). left. split; [exact F|]. destruct C; subst; auto.
    + exists ([ch] ++ sg ++ ds). split; [cbn; rewrite <- app_assoc; reflexivity|]. right. exists [ch], sg, ds.
      repeat (split; [solve [reflexivity|assumption]|]). right. left. split; [exact F|]. destruct C; subst; auto.
    + exists ([] ++ sg ++ ds). split; [cbn; rewrite <- app_assoc; congruence|]. right. exists [], sg, ds.
      repeat (split; [solve [reflexivity|assumption]|]). right. right. split; [exact F|]. split; [reflexivity|].
      intros ->. cbn [app] in *. destruct ds as [|d ds]; [congruence|].
      match goal with H : _ :: _ = _ |- _ => injection H as -> _ end. inversion A as [|? ? HD]; subst. apply digit_sign in HD. destruct C; tauto.
  - exists []. split; [reflexivity|]. left. auto.
  - exists []. split; [reflexivity|]. left. auto.
Qed.

Theorem number_number_text R s neg ip fp e rest : number R s neg ip fp e rest ->
  exists p, s = p ++ rest /\ number_text R p neg ip fp e.
Proof.
  intros (s1 & s2 & hp & s3 & SG & (RI & AI & NI) & F & MO & EX).
  destruct (exponent_split _ _ _ _ EX) as (ex & -> & ET).
  assert (FT : exists pt, s2 = pt ++ ex ++ rest /\ fraction_text R hp fp pt).
  { inversion F as [? ? ? (E2 & A2 & N2)|]; subst.
    - exists (point R :: fp). split; [reflexivity|]. right. auto.
    - exists []. split; [reflexivity|]. left. auto. }
  destruct FT as (pt & -> & FT). subst s1.
  assert (ST : exists sg, s = sg ++ ip ++ pt ++ ex ++ rest /\ sign_text R neg sg).
  { inversion SG; subst; [exists [45]|exists [43]|exists []]; (split; [reflexivity|]); unfold sign_text; auto 6. }
  destruct ST as (sg & -> & ST). exists (sg ++ ip ++ pt ++ ex). split; [rewrite <- !app_assoc; reflexivity|].
  exists sg, hp, pt, ex. auto 6.
Qed.

(** ** Comparing a complete number that starts the text with the scan. *)
Lemma prefix_digits a b x y : all_digits a -> all_digits b -> a ++ x = b ++ y -> not_at_digit y ->
  (a = b /\ x = y) \/ (exists d l z, b = a ++ d :: l /\ x = d :: z /\ digit d = true).
Proof.
  revert b. induction a as [|c a IH]; intros b A B E N.
  - destruct b as [|d b]; [left; split; [reflexivity|exact E]|]. right. cbn in E. exists d, b, (b ++ y).
    inversion B; subst. auto.
  - destruct b as [|d b].
    + exfalso. cbn in E. subst y. inversion A; subst. cbn in N. contradiction.
    + cbn in E. injection E as -> E. inversion A; inversion B; subst.
      destruct (IH b) as [(-> & ->)|(d' & l & z & -> & -> & D)]; auto.
      right. exists d', l, z. auto.
Qed.

(** [sg'], [ip'], ... : the complete number; [s1], [s2], ... : the scan. *)
Lemma compare R s neg s1 ip s2 hp fp s3 sg' neg' ip' hp' fp' pt' ex' e' rest' : plain_point R ->
  signed R s neg s1 -> run s1 ip s2 -> fraction R s2 hp fp s3 ->
  s = (sg' ++ ip' ++ pt' ++ ex') ++ rest' -> sign_text R neg' sg' -> all_digits ip' -> fraction_text R hp' fp' pt' ->
  mantissa_ok R ip' hp' fp' -> exponent_text R e' ex' ->
  s = sg' ++ s1 /\ neg' = neg /\
  ((exists d l z, ip = ip' ++ d :: l /\ rest' = d :: z /\ digit d = true /\ pt' = [] /\ fp' = [] /\ ex' = []) \/
   (ip = ip' /\ hp = true /\ pt' = [] /\ fp' = [] /\ ex' = [] /\ exists z, rest' = point R :: z) \/
   (ip = ip' /\ hp = true /\ hp' = true /\ ex' = [] /\ exists d l z, fp = fp' ++ d :: l /\ rest' = d :: z /\ digit d = true) \/
   (ip = ip' /\ hp = hp' /\ fp = fp' /\ s3 = ex' ++ rest')).
Proof.
  intros PP SG (RI & AI & NI) F E ST AI' FT MO ET.
  destruct (mantissa_head R ip' hp' fp' pt' ex' PP AI' FT MO) as (ch & l & EH & CH).
  destruct (mantissa_head_sign R ch PP CH) as (H1 & H2).
  assert (S1 : s1 = (ip' ++ pt' ++ ex') ++ rest' /\ neg' = neg).
  { destruct ST as [(-> & ->)|[(-> & ->)|(-> & -> & L & J)]]; cbn [app] in E; rewrite ?EH in E; cbn [app] in E; subst s;
      rewrite ?EH; cbn [app]; inversion SG; subst; try (split; congruence); try (exfalso; cbn in *; tauto).
    }
  destruct S1 as (S1 & ->). split; [rewrite E, S1, <- !app_assoc; reflexivity|]. split; [reflexivity|].
  clear E SG ST s sg' EH CH H1 H2 ch l.
  rewrite RI, <- app_assoc in S1. symmetry in S1.
  assert (HD : forall d z, (pt' ++ ex') ++ rest' = d :: z -> digit d = true -> pt' = [] /\ fp' = [] /\ ex' = [] /\ rest' = d :: z).
  { intros d z EZ D. destruct FT as [(_ & -> & ->)|(_ & _ & ->)].
    - cbn [app] in EZ. destruct (list_eq_dec Z.eq_dec ex' []) as [->|NE]; [auto|].
      destruct (exponent_text_head R e' ex' ET NE) as (c0 & l0 & -> & I0). cbn in EZ. injection EZ as -> _.
      apply digit_sign in D. cbn in I0. exfalso. intuition.
    - cbn in EZ. injection EZ as <- _. destruct PP. congruence. }
  destruct (prefix_digits _ _ _ _ AI' AI S1 NI) as [(-> & S2)|(d & l & z & -> & EZ & D)].
  2:{ left. destruct (HD d z EZ D) as (-> & -> & -> & ->). exists d, l, z. auto 8. }
  right. inversion F as [sf ds r (E2 & A2 & N2)|sn NP]; subst.
  - (* the scan has a point *)
    destruct FT as [(-> & -> & ->)|(-> & AF' & ->)].
    + left. cbn [app] in H. destruct (list_eq_dec Z.eq_dec ex' []) as [->|NE].
      * split; [reflexivity|]. split; [reflexivity|]. split; [reflexivity|]. split; [reflexivity|]. split; [reflexivity|].
        cbn in H. exists (fp ++ s3). congruence.
      * exfalso. destruct (exponent_text_head R e' ex' ET NE) as (c0 & l0 & -> & I0). cbn in H. injection H as HP _.
        destruct PP as (_ & PP). rewrite HP in PP. contradiction.
    + right. cbn [app] in H. injection H as H. rewrite <- app_assoc in H. symmetry in H.
      destruct (prefix_digits _ _ _ _ AF' A2 H N2) as [(-> & S3)|(d & l & z & -> & EZ & D)].
      * right. auto.
      * left. split; [reflexivity|]. split; [reflexivity|]. split; [reflexivity|].
        destruct (list_eq_dec Z.eq_dec ex' []) as [->|NE].
        -- split; [reflexivity|]. exists d, l, z. auto.
        -- exfalso. destruct (exponent_text_head R e' ex' ET NE) as (c0 & l0 & -> & I0). cbn in EZ. injection EZ as -> _.
           apply digit_sign in D. cbn in I0. intuition.
  - right. right. destruct FT as [(-> & -> & ->)|(-> & AF' & ->)].
    + auto.
    + exfalso. cbn in NP. apply NP. reflexivity.
Qed.

Lemma exponent_length R s e rest : exponent R s e rest -> (length rest <= length s)%nat.
Proof. intros H. destruct (exponent_suffix _ _ _ _ H) as (p & ->). rewrite app_length. lia. Qed.
Lemma fraction_length R s hp fp s3 : fraction R s hp fp s3 ->
  (length s = (if hp then 1 else 0) + length fp + length s3)%nat /\ (hp = false -> fp = []).
Proof.
  intros F. inversion F as [? ? ? (E2 & A2 & N2)|]; subst; cbn [length]; rewrite ?app_length; split; try reflexivity; discriminate.
Qed.
Lemma fraction_text_length R hp fp pt : fraction_text R hp fp pt -> (length pt = (if hp then 1 else 0) + length fp)%nat.
Proof. intros [(-> & -> & ->)|(-> & _ & ->)]; reflexivity. Qed.

Lemma exponent_compare R e rest e' ex' rest' : exponent R (ex' ++ rest') e rest -> exponent_text R e' ex' ->
  (length rest <= length rest')%nat.
Proof.
  intros EX ET. destruct (list_eq_dec Z.eq_dec ex' []) as [->|NE]; [exact (exponent_length _ _ _ _ EX)|].
  destruct (exponent_text_mark R e' ex' rest' ET NE) as (s1 & neg & s2 & ds & M & S & -> & AD & ND & _).
  inversion EX as [? s1' neg' s2' ds' ? EM ES (E2 & A & N)|? NM F|? s1' neg' s2' EM ES N F]; subst.
  - rewrite (exp_mark_unique _ _ _ _ M EM) in *. destruct (exp_sign_unique _ _ _ _ _ S ES) as (<- & E).
    destruct (prefix_digits _ _ _ _ AD A E N) as [(_ & ->)|(d & l & z & -> & -> & D)]; [lia|].
    apply (f_equal (@length Z)) in E. rewrite !app_length in E. cbn [length] in *. lia.
  - destruct (NM _ M).
  - rewrite (exp_mark_unique _ _ _ _ M EM) in *. destruct (exp_sign_unique _ _ _ _ _ S ES) as (<- & <-).
    exfalso. destruct ds as [|d ds]; [congruence|]. inversion AD; subst. cbn in N. contradiction.
Qed.

(** The scan finds the longest number. *)
Theorem number_longest R s neg ip fp e rest : plain_point R -> number R s neg ip fp e rest ->
  exists p, number_text R p neg ip fp e /\ longest_number R s p rest.
Proof.
  intros PP NUM. destruct (number_number_text _ _ _ _ _ _ _ NUM) as (p & -> & NT).
  exists p. split; [exact NT|]. split; [reflexivity|].
  intros p' rest' neg' ip' fp' e' E (sg' & hp' & pt' & ex' & -> & ST & AI' & FT & MO' & ET).
  destruct NUM as (s1 & s2 & hp & s3 & SG & RN & F & MO & EX).
  destruct (compare R _ _ _ _ _ _ _ _ _ _ _ _ _ _ _ _ _ PP SG RN F E ST AI' FT MO' ET) as (S1 & _ & CASES).
  destruct RN as (RI & _ & _).
  destruct (fraction_length _ _ _ _ _ F) as (LF & _). pose proof (fraction_text_length _ _ _ _ FT) as LT.
  pose proof (exponent_length _ _ _ _ EX) as LE.
  assert (L1 : (length ((sg' ++ ip' ++ pt' ++ ex') ++ rest') = length sg' + (length ip + length s2))%nat).
  { rewrite <- E, S1, RI, !app_length. reflexivity. }
  apply (f_equal (@length Z)) in E. rewrite !app_length in *.
  destruct CASES as [(d & l & z & -> & -> & _ & -> & -> & ->)|[(-> & -> & -> & -> & -> & z & ->)|[(-> & -> & -> & -> & d & l & z & -> & -> & _)|(-> & -> & -> & ->)]]].
  - rewrite app_length in L1. cbn [length] in *. lia.
  - cbn [length] in *. lia.
  - rewrite app_length in LF. cbn [length] in *. lia.
  - pose proof (exponent_compare _ _ _ _ _ _ EX ET). rewrite app_length in LF. lia.
Qed.

Lemma signed_exists R s : exists neg s1, signed R s neg s1.
Proof.
  destruct s as [|ch s]; [exists false, []; apply signed_none; exact I|].
  destruct (Z.eq_dec ch 45) as [->|N1]; [exists true, s; constructor|].
  destruct (Z.eq_dec ch 43) as [->|N2].
  - destruct (leading_plus R) eqn:L; [destruct (json R) eqn:J|].
    + exists false, (43 :: s). apply signed_none. cbn. intuition congruence.
    + exists false, s. apply signed_plus; assumption.
    + exists false, (43 :: s). apply signed_none. cbn. intuition congruence.
  - exists false, (ch :: s). apply signed_none. cbn. tauto.
Qed.

Lemma fraction_exists R s : exists hp fp s3, fraction R s hp fp s3.
Proof.
  destruct s as [|ch s]; [exists false, [], []; apply fraction_none; exact I|].
  destruct (Z.eq_dec ch (point R)) as [->|N].
  - destruct (run_exists s) as (ds & r & RN). exists true, ds, r. apply fraction_some. exact RN.
  - exists false, [], (ch :: s). apply fraction_none. exact N.
Qed.

Lemma exp_mark_dec R s : (exists s1, exp_mark R s s1) \/ forall s1, ~ exp_mark R s s1.
Proof.
  destruct (exp_mark_code R s) as [H1 H2].
  destruct ((scientific R && (at_char 101 s || at_char 69 s))
     || (fortran R && (at_char 43 s || at_char 45 s || at_char 100 s || at_char 68 s))); [left; eauto|right; auto].
Qed.

Lemma exponent_exists R s : fixed R = true \/ (scientific R = false /\ fortran R = false) -> exists e r, exponent R s e r.
Proof.
  intros H. destruct (exp_mark_dec R s) as [(s1 & M)|NM].
  - destruct H as [H|(H1 & H2)].
    + pose proof (exp_sign_code s1) as ES. revert ES. generalize (at_char 45 s1) at 1. generalize (if at_char 45 s1 then tl s1 else if at_char 43 s1 then tl s1 else s1). intros s2 neg ES.
      destruct (run_exists s2) as (ds & r & RN). destruct ds as [|d ds].
      * exists 0, s. eapply exponent_dangling; try eassumption. destruct RN as (E & _ & N). cbn in E. rewrite E. exact N.
      * eexists; eexists. eapply exponent_some; try eassumption. discriminate.
    + inversion M; congruence.
  - exists 0, s. apply exponent_none; [exact NM|]. destruct H as [H|(H & _)]; auto.
Qed.

Lemma exponent_extends R e' ex' rest' : exponent_text R e' ex' -> ex' <> [] -> exists e r, exponent R (ex' ++ rest') e r.
Proof.
  intros ET NE. destruct (exponent_text_mark R e' ex' rest' ET NE) as (s1 & neg & s2 & ds & M & S & -> & AD & ND & _).
  destruct (run_exists (ds ++ rest')) as (ds2 & r & RN).
  eexists; eexists. eapply exponent_some; try eassumption.
  intros ->. destruct RN as (E & _ & N). cbn in E. destruct ds as [|d ds]; [congruence|]. rewrite <- E in N.
  inversion AD; subst. cbn in N. contradiction.
Qed.

(** A text that starts with a complete number is accepted; JSON has two exceptions. *)
Theorem number_accepts R s p rest neg' ip' fp' e' : plain_point R -> usual_flags R ->
  s = p ++ rest -> number_text R p neg' ip' fp' e' ->
  (json R = true -> not_at_digit rest /\ (Forall (fun ch => digit ch = true \/ ch = 45) p -> not_at (fun ch => ch = point R) rest)) ->
  exists neg ip fp e r, number R s neg ip fp e r.
Proof.
  intros PP UF -> (sg' & hp' & pt' & ex' & -> & ST & AI' & FT & MO' & ET) JC.
  destruct (signed_exists R ((sg' ++ ip' ++ pt' ++ ex') ++ rest)) as (neg & s1 & SG).
  destruct (run_exists s1) as (ip & s2 & RN). destruct (fraction_exists R s2) as (hp & fp & s3 & F).
  destruct (compare R _ _ _ _ _ _ _ _ _ _ _ _ _ _ _ _ _ PP SG RN F eq_refl ST AI' FT MO' ET) as (_ & _ & CASES).
  assert (E0 : exponent_text R e' ex' -> ex' = [] -> e' = 0 /\ (scientific R = false \/ fixed R = true)).
  { intros [(_ & -> & H)|(m & sg & ds & -> & _ & ND & _)] E; [auto|]. exfalso.
    apply app_eq_nil in E. destruct E as (_ & E). apply app_eq_nil in E. destruct E as (_ & E). congruence. }
  assert (MO : mantissa_ok R ip hp fp).
  { unfold mantissa_ok in *. destruct (json R) eqn:J.
    - destruct (JC eq_refl) as (J1 & J2). destruct MO' as (M1 & M2 & M3).
      destruct CASES as [(d & l & z & -> & -> & D & _)|[(-> & -> & -> & -> & -> & z & ->)|[(-> & -> & -> & -> & d & l & z & -> & -> & _)|(-> & -> & -> & ->)]]].
      + exfalso. cbn in J1. contradiction.
      + exfalso. assert (J3 : not_at (fun ch => ch = point R) (point R :: z)); [|apply J3; reflexivity]. apply J2.
        rewrite !app_nil_r. apply Forall_app. split.
        * destruct ST as [(-> & ->)|[(-> & ->)|(_ & _ & _ & J')]]; [constructor; [right; reflexivity|constructor]|constructor|congruence].
        * eapply Forall_impl; [|exact AI']. auto.
      + split; [exact M1|]. split; [exact M2|]. intros _. destruct fp'; discriminate.
      + auto.
    - destruct CASES as [(d & l & z & -> & _)|[(-> & _ & _ & -> & _)|[(-> & -> & -> & -> & d & l & z & -> & -> & _)|(-> & -> & -> & ->)]]].
      + destruct ip'; discriminate.
      + intros E. apply app_eq_nil in E. destruct E as (-> & _). apply MO'. reflexivity.
      + intros E. apply app_eq_nil in E. destruct E as (_ & E). destruct fp'; discriminate E.
      + exact MO'. }
  assert (EX : exists e r, exponent R s3 e r).
  { destruct (fixed R) eqn:FX; [apply exponent_exists; auto|].
    destruct (scientific R) eqn:SC.
    - destruct (list_eq_dec Z.eq_dec ex' []) as [->|NE]; [destruct (E0 ET eq_refl) as (_ & [H|H]); congruence|].
      destruct CASES as [(d & l & z & _ & _ & _ & _ & _ & ->)|[(_ & _ & _ & _ & -> & _)|[(_ & _ & _ & -> & _)|(_ & _ & _ & ->)]]]; try congruence.
      eapply exponent_extends; eassumption.
    - destruct UF as [UF|[UF|UF]]; try congruence. apply exponent_exists. auto. }
  destruct EX as (e & r & EX). exists neg, ip, fp, e, r. exists s1, s2, hp, s3. auto.
Qed.

Theorem longest_unique R s p rest p' rest' neg ip fp e neg' ip' fp' e' : plain_point R ->
  number_text R p neg ip fp e -> longest_number R s p rest ->
  number_text R p' neg' ip' fp' e' -> longest_number R s p' rest' ->
  p = p' /\ rest = rest' /\ neg = neg' /\ ip = ip' /\ fp = fp' /\ e = e'.
Proof.
  intros PP N1 (E1 & L1) N2 (E2 & L2).
  assert (L : length p = length p').
  { pose proof (L1 _ _ _ _ _ _ E2 N2). pose proof (L2 _ _ _ _ _ _ E1 N1). lia. }
  rewrite E1 in E2. assert (EP : p = p').
  { clear - E2 L. revert p' L E2. induction p as [|a p IH]; intros [|b p'] L E; cbn in *; try lia; [reflexivity|].
    injection E as -> E. f_equal. apply IH; [lia|exact E]. }
  subst p'. apply app_inv_head in E2. split; [reflexivity|]. split; [exact E2|].
  destruct (number_unique _ _ _ _ _ _ _ _ _ _ _ _ (number_text_number _ _ _ _ _ _ PP N1) (number_text_number _ _ _ _ _ _ PP N2))
   as (H1 & H2 & H3 & H4 & _). auto.
Qed.
