(** Property C75: from_chars follows the specification of C++17's std::from_chars
    and, with the two extra flags, of C's strtod (SpecStd). *)
From Coq Require Import ZArith QArith List Lia Bool.
From Verif Require Import Machine Config Chars Format ParseNumber DecToBin FromChars Ints WordLemmas
  SpecFloat FloatBridge SpecGrammar SpecText SpecApi SpecInt SpecIntApi SpecStd TextSpec FloatApi IntApi
  Special Props_Pow10 Props_Float Props_Special Props_Grammar Props_Ints.
Import ListNotations.
Open Scope Z_scope.

Definition std_rules (plus sc fx : bool) : rules :=
  {| leading_plus := plus; json := false; scientific := sc; fixed := fx; fortran := false; point := 46 |}.

Lemma std_plain plus sc fx : plain_point (std_rules plus sc fx).
Proof. split; [reflexivity|]. cbn. lia. Qed.

Lemma std_usual plus sc fx : usual_flags (std_rules plus sc fx).
Proof. right. right. reflexivity. Qed.

Lemma sign_form_text plus sc fx neg sg : sign_form plus neg sg <-> sign_text (std_rules plus sc fx) neg sg.
Proof. unfold sign_form, sign_text. cbn [leading_plus json std_rules]. tauto. Qed.

Lemma exponent_form_text plus sc fx e ex : sc || fx = true ->
  ((fx = true /\ ex = [] /\ e = 0) \/ (sc = true /\ exponent_form e ex)) <-> exponent_text (std_rules plus sc fx) e ex.
Proof.
  intros SF. unfold exponent_text. cbn [scientific fixed fortran std_rules]. split.
  - intros [(-> & -> & ->)|(-> & letter & sg & neg & ds & -> & L & SG & A & N & ->)]; [left; auto|right].
    exists [letter], sg, ds. split; [reflexivity|]. split; [exact A|]. split; [exact N|]. split.
    + destruct SG as [(-> & ->)|[(-> & ->)|(_ & -> & ->)]]; auto.
    + left. split; [reflexivity|]. destruct L as [-> | ->]; auto.
  - intros [(-> & -> & H)|(m & sg & ds & -> & A & N & SG & M)].
    + left. split; [|auto]. destruct sc, fx; destruct H; try discriminate; auto.
    + right. destruct M as [(-> & M)|[(M & _)|(M & _)]]; [|discriminate M|discriminate M]. split; [reflexivity|].
      assert (exists letter, m = [letter] /\ (letter = 101 \/ letter = 69)) as (letter & -> & L) by (destruct M as [-> | ->]; eauto).
      destruct SG as [(-> & ->)|([-> | ->] & ->)].
      * exists letter, [45], true, ds. repeat split; try assumption. right. left. auto.
      * exists letter, [], false, ds. repeat split; try assumption. left. auto.
      * exists letter, [43], false, ds. repeat split; try assumption. right. right. auto.
Qed.

(** Numbers of the two grammars are the same. *)
Lemma number_subject plus sc fx p neg r : sc || fx = true ->
  (subject plus sc fx p (Real neg r) <->
   exists ip fp e, number_text (std_rules plus sc fx) p neg ip fp e /\ r = number_value ip fp e).
Proof.
  intros SF. split.
  - intros SU. inversion SU as [sg ? body ? SG (ip & fp & pt & ex & e & -> & AI & AF & NE & PT & EX & ->) E E'| | | |]; subst.
    exists ip, fp, e. split; [|reflexivity].
    exists sg, (match pt with [] => false | _ => true end), pt, ex. split; [reflexivity|].
    split; [apply sign_form_text, SG|]. split; [exact AI|]. split.
    + destruct PT as [(-> & ->)| ->]; [left; auto|right; auto].
    + split; [exact NE|]. apply exponent_form_text; assumption.
  - intros (ip & fp & e & (sg & hp & pt & ex & -> & SG & AI & FT & MO & EX) & ->).
    apply subject_number; [apply (sign_form_text plus sc fx), SG|].
    exists ip, fp, pt, ex, e. split; [reflexivity|]. split; [exact AI|].
    assert (AF : all_digits fp) by (destruct FT as [(_ & -> & _)|(_ & A & _)]; [constructor|exact A]).
    split; [exact AF|]. split; [exact MO|]. split.
    + destruct FT as [(_ & -> & ->)|(_ & _ & ->)]; [left; auto|right; reflexivity].
    + split; [|reflexivity]. apply (exponent_form_text plus); assumption.
Qed.

(** ** The words *)
Lemma same_letters_ignoring w s rest : same_letters w s rest <-> exists body, s = body ++ rest /\ ignoring_case w body.
Proof.
  revert s. induction w as [|x w IH]; intros s; split.
  - intros SL. inversion SL; subst. exists []. split; [reflexivity|constructor].
  - intros (body & -> & IG). inversion IG; subst. constructor.
  - intros SL. inversion SL as [|? ? ch s' ? C SL']; subst. apply IH in SL'. destruct SL' as (body & -> & IG).
    exists (ch :: body). split; [reflexivity|]. constructor; assumption.
  - intros (body & -> & IG). inversion IG as [|? ch ? body' C IG']; subst. cbn [app]. constructor; [exact C|].
    apply IH. exists body'. auto.
Qed.

(** The body of a special value starts with i, I, n or N. *)
Definition letter_first (body : list Z) : Prop := exists ch l, body = ch :: l /\ In ch [105; 73; 110; 78].

Lemma ignoring_first x w body : x = 105 \/ x = 110 -> ignoring_case (x :: w) body -> letter_first body.
Proof. intros X IG. inversion IG as [|? ch ? l C]; subst. exists ch, l. split; [reflexivity|]. cbn. lia. Qed.

Lemma sign_form_special plus neg sg t : letter_first t -> sign_form plus neg sg -> special_sign plus (sg ++ t) neg t.
Proof.
  intros (ch & l & -> & I) [(-> & ->)|[(-> & ->)|(-> & -> & ->)]]; cbn [app].
  - apply ssign_none. cbn in I |- *. lia.
  - constructor.
  - apply ssign_plus. reflexivity.
Qed.

Lemma special_sign_form plus s neg s1 : special_sign plus s neg s1 -> exists sg, s = sg ++ s1 /\ sign_form plus neg sg.
Proof.
  intros SS. inversion SS; subst.
  - exists [45]. split; [reflexivity|]. right. left. auto.
  - exists [43]. split; [reflexivity|]. right. right. auto.
  - exists []. split; [reflexivity|]. left. auto.
Qed.

Lemma app_first (body t : list Z) : letter_first body -> letter_first (body ++ t).
Proof. intros (ch & l & -> & I). exists ch, (l ++ t). auto. Qed.

(** No number starts where a special value does. *)
Lemma special_no_number plus sc fx s neg k rest neg' ip fp e rest' :
  special plus s neg k rest -> ~ number (std_rules plus sc fx) s neg' ip fp e rest'.
Proof.
  intros SP N.
  assert (G : exists s1, special_sign plus s neg s1 /\ letter_first s1).
  { inversion SP as [? ? s1 s2 ? SS SL PL|? ? s1 s2 ? SS SL SL2|? ? s1 ? SS SL NI]; subst; exists s1; (split; [exact SS|]);
      apply same_letters_ignoring in SL; destruct SL as (body & -> & IG); apply app_first;
      (eapply ignoring_first; [|exact IG]; cbn; lia). }
  destruct G as (s1 & SS & (ch & l & -> & I)).
  destruct N as (t1 & t2 & hp & t3 & SG & (RI & AI & NI) & F & MO & EX).
  assert (T1 : t1 = ch :: l).
  { inversion SS; subst; inversion SG; subst; try reflexivity; cbn in *; lia. }
  rewrite T1 in RI. assert (D : digit ch = false) by (unfold digit; cbn in I; destruct I as [<-|[<-|[<-|[<-|[]]]]]; reflexivity).
  destruct ip as [|d ip]; [|injection RI as <- _; inversion AI; congruence].
  cbn [app] in RI. subst t2. inversion F as [? ds ? R|? NP]; subst.
  - cbn in I. lia.
  - apply MO. reflexivity.
Qed.

(** Special subjects are what [special] describes. *)
Definition kind_meaning (k : special_kind) (neg : bool) : meaning :=
  match k with Inf => Infinite neg | Nan => NotANumber neg end.

Lemma special_subject plus sc fx s neg k rest : special plus s neg k rest ->
  exists p, s = p ++ rest /\ subject plus sc fx p (kind_meaning k neg).
Proof.
  intros SP. inversion SP as [? ? s1 s2 ? SS SL PL|? ? s1 s2 ? SS SL SL2|? ? s1 ? SS SL NI]; subst;
    apply special_sign_form in SS; destruct SS as (sg & -> & SG); apply same_letters_ignoring in SL;
    destruct SL as (body & -> & IG); cbn [kind_meaning].
  - inversion PL as [l ? A|? NP]; subst.
    + exists (sg ++ body ++ 40 :: l ++ [41]). split; [|apply subject_nan_sequence; assumption].
      rewrite <- !app_assoc. cbn [app]. rewrite <- app_assoc. reflexivity.
    + exists (sg ++ body). split; [rewrite <- app_assoc; reflexivity|]. apply subject_nan; assumption.
  - apply same_letters_ignoring in SL2. destruct SL2 as (body2 & -> & IG2). exists (sg ++ body ++ body2).
    split; [rewrite <- !app_assoc; reflexivity|]. apply subject_infinity; [exact SG|].
    change [105; 110; 102; 105; 110; 105; 116; 121] with (word_inf ++ word_inity). apply Forall2_app; assumption.
  - exists (sg ++ body). split; [rewrite <- app_assoc; reflexivity|]. apply subject_inf; assumption.
Qed.

Lemma payload_exists s : exists rest, payload s rest.
Proof.
  assert (D : forall t, (exists l rest, t = l ++ 41 :: rest /\ Forall (fun ch => nchar ch = true) l) \/
    (forall l rest, t = l ++ 41 :: rest -> ~ Forall (fun ch => nchar ch = true) l)).
  { induction t as [|ch t IH]; [right; intros [|] ?; discriminate|].
    destruct (Z.eq_dec ch 41) as [->|N]; [left; exists [], t; split; [reflexivity|constructor]|].
    destruct (nchar ch) eqn:C.
    - destruct IH as [(l & rest & -> & A)|NO].
      + left. exists (ch :: l), rest. split; [reflexivity|]. constructor; assumption.
      + right. intros [|d l] rest E A; [injection E; congruence|]. injection E as <- E. exact (NO _ _ E (Forall_inv_tail A)).
    - right. intros [|d l] rest E A; [injection E; congruence|]. injection E as <- E. pose proof (Forall_inv A) as A1. cbv beta in A1. congruence. }
  destruct s as [|ch s]; [exists []; apply payload_none; discriminate|].
  destruct (Z.eq_dec ch 40) as [->|N]; [|exists (ch :: s); apply payload_none; intros l rest _ E; injection E; congruence].
  destruct (D s) as [(l & rest & -> & A)|NO]; [exists rest; apply payload_some, A|].
  exists (40 :: s). apply payload_none. intros l rest A E. injection E as E. exact (NO _ _ E A).
Qed.

Lemma ignoring_length w body : ignoring_case w body -> length body = length w.
Proof. intros IG. induction IG; cbn [length]; congruence. Qed.

Lemma same_letters_dec w : forall s, (exists r, same_letters w s r) \/ (forall r, ~ same_letters w s r).
Proof.
  induction w as [|x w IH]; intros s; [left; exists s; constructor|].
  destruct s as [|ch s]; [right; intros r H; inversion H|].
  destruct (Z.eq_dec ch x) as [C|C].
  - destruct (IH s) as [(r & H)|H]; [left; exists r; constructor; auto|right; intros r K; inversion K; subst; eapply H; eassumption].
  - destruct (Z.eq_dec ch (x - 32)) as [C'|C'].
    + destruct (IH s) as [(r & H)|H]; [left; exists r; constructor; auto|right; intros r K; inversion K; subst; eapply H; eassumption].
    + right. intros r K. inversion K; subst. lia.
Qed.

(** A special subject at the start of [s]: [s] is [special], and at least as long. *)
Lemma subject_special plus sc fx s p m rest : s = p ++ rest -> subject plus sc fx p m ->
  (forall neg r, m <> Real neg r) ->
  exists neg k rest', m = kind_meaning k neg /\ special plus s neg k rest' /\ (length rest' <= length rest)%nat.
Proof.
  intros -> SU NR.
  assert (INF : forall sg neg body t, sign_form plus neg sg -> ignoring_case word_inf body ->
    exists rest', special plus ((sg ++ body) ++ t) neg Inf rest' /\ (length rest' <= length t)%nat /\
      (forall r, same_letters word_inity t r -> rest' = r)).
  { intros sg neg body t SG IG.
    assert (SS : special_sign plus ((sg ++ body) ++ t) neg (body ++ t)).
    { rewrite <- app_assoc. apply sign_form_special; [|exact SG]. apply app_first. eapply ignoring_first; [|exact IG]. lia. }
    assert (SL : same_letters word_inf (body ++ t) t) by (apply same_letters_ignoring; eauto).
    destruct (same_letters_dec word_inity t) as [(r & H)|H].
    - exists r. split; [eapply special_infinity; eassumption|]. split.
      + apply same_letters_ignoring in H. destruct H as (b2 & -> & _). rewrite app_length. lia.
      + intros r' H'. apply same_letters_ignoring in H, H'. destruct H as (b2 & -> & IG2), H' as (b3 & E & IG3).
        assert (b2 = b3) by (apply ignoring_length in IG2, IG3; apply (f_equal (firstn (length b2))) in E;
          rewrite firstn_app, firstn_all, Nat.sub_diag, firstn_O, app_nil_r in E;
          replace (length b2) with (length b3) in E by congruence;
          rewrite firstn_app, firstn_all, Nat.sub_diag, firstn_O, app_nil_r in E; exact E).
        subst b3. apply app_inv_head in E. exact E.
    - exists t. split; [eapply special_inf; eassumption|]. split; [lia|]. intros r H'. exfalso. exact (H r H'). }
  inversion SU as [|sg neg body SG IG|sg neg body SG IG|sg neg body SG IG|sg neg body l SG IG A]; subst.
  - exfalso. eapply NR. reflexivity.
  - destruct (INF sg neg body rest SG IG) as (r & SP & L & _). exists neg, Inf, r. auto.
  - change [105; 110; 102; 105; 110; 105; 116; 121] with (word_inf ++ word_inity) in IG.
    apply Forall2_app_inv_l in IG. destruct IG as (b1 & b2 & IG1 & IG2 & ->).
    destruct (INF sg neg b1 (b2 ++ rest) SG IG1) as (r & SP & _ & U).
    exists neg, Inf, r. replace ((sg ++ b1 ++ b2) ++ rest) with ((sg ++ b1) ++ b2 ++ rest) by (rewrite !app_assoc; reflexivity).
    split; [reflexivity|]. split; [exact SP|]. rewrite (U rest); [lia|]. apply same_letters_ignoring. eauto.
  - destruct (payload_exists rest) as (r & PL). exists neg, Nan, r. split; [reflexivity|]. split.
    + rewrite <- app_assoc. eapply special_nan.
      * apply sign_form_special; [|exact SG]. apply app_first. eapply ignoring_first; [|exact IG]. lia.
      * apply same_letters_ignoring. eauto.
      * exact PL.
    + inversion PL; subst; [|lia]. cbn [length]. rewrite app_length. cbn [length]. lia.
  - exists neg, Nan, rest. split; [reflexivity|]. split; [|lia].
    replace ((sg ++ body ++ 40 :: l ++ [41]) ++ rest) with (sg ++ body ++ 40 :: l ++ 41 :: rest)
      by (rewrite <- !app_assoc; cbn [app]; rewrite <- app_assoc; reflexivity).
    eapply special_nan.
    + apply sign_form_special; [|exact SG]. apply app_first. eapply ignoring_first; [|exact IG]. lia.
    + apply same_letters_ignoring. eauto.
    + apply payload_some, A.
Qed.

(** ** C75: floating-point types *)

(** std::chars_format and the library's two extra flags as a number:
    scientific, fixed, allow_leading_plus, skip_white_space *)
Definition std_flags (sc fx plus ws : bool) : Z :=
  (if sc then 1 else 0) + (if fx then 4 else 0) + (if plus then 128 else 0) + (if ws then 256 else 0).

Section Reading.
Variables (c : cfg) (u : uc) (t : ftype) (sc fx plus ws : bool) (s s0 : list Z).
Hypothesis (NP : macro_leading_plus c = false) (NW : macro_skip_ws c = false)
  (UU : u = Wchar_s32 -> Forall (fun ch => - 2 ^ 31 + 48 <= ch /\ (ws = true -> ch < 0 -> space (ch mod 256) = false)) s)
  (SF : sc || fx = true) (CU : Forall (code_unit u) s) (LEN : Z.of_nat (length s) < 268000000)
  (ST : if ws then without_spaces s s0 else s0 = s).
Let o := {| o_format := std_flags sc fx plus ws; o_decimal_point := 46; o_base := 10 |}.

Lemma std_rules_of : rules_of c o = std_rules plus sc fx.
Proof. unfold rules_of, std_rules, o. cbn [o_format o_decimal_point]. rewrite NP. destruct sc, fx, plus, ws; reflexivity. Qed.

Lemma std_good : good_text c u o s.
Proof.
  split; [exact CU|]. split; [|split; [lia|reflexivity]]. intros W. eapply Forall_impl; [|exact (UU W)].
  intros ch (H1 & H2). split; [exact H1|]. intros SK. apply H2. revert SK. unfold skips_space, o. cbn [o_format]. rewrite NW.
  destruct sc, fx, plus, ws; (reflexivity || discriminate).
Qed.

Lemma std_starts : starts_at c o s s0.
Proof. unfold starts_at, skips_space, o. cbn [o_format]. rewrite NW. destruct sc, fx, plus, ws; exact ST. Qed.

Lemma std_special : allows_special o = true.
Proof. unfold allows_special, o. cbn [o_format]. destruct sc, fx, plus, ws; reflexivity. Qed.

(** A text that [special] describes has this special subject as its longest one. *)
Lemma special_matches neg k rest : special plus s0 neg k rest ->
  exists p, matches plus sc fx s0 p (kind_meaning k neg) rest.
Proof.
  intros SP. destruct (special_subject plus sc fx s0 neg k rest SP) as (p & E & SU).
  exists p. split; [exact E|]. split; [exact SU|]. intros p' m' rest' E' SU'.
  assert (NR : forall n r, m' <> Real n r).
  { intros n r ->. apply number_subject in SU'; [|exact SF]. destruct SU' as (ip & fp & e & NT & _).
    destruct (number_accepts (std_rules plus sc fx) s0 p' rest' n ip fp e (std_plain _ _ _) (std_usual _ _ _) E' NT
      ltac:(cbn; discriminate)) as (n2 & ip2 & fp2 & e2 & r2 & N2).
    exact (special_no_number _ _ _ _ _ _ _ _ _ _ _ _ SP N2). }
  destruct (subject_special plus sc fx s0 p' m' rest' E' SU' NR) as (n2 & k2 & r2 & _ & SP2 & L2).
  destruct (special_unique _ _ _ _ _ _ _ _ SP SP2) as (_ & _ & <-).
  assert (length s0 = (length p + length rest)%nat) by (rewrite E, app_length; reflexivity).
  assert (length s0 = (length p' + length rest')%nat) by (rewrite E', app_length; reflexivity). lia.
Qed.

Lemma number_matches neg ip fp e rest : number (std_rules plus sc fx) s0 neg ip fp e rest ->
  exists p, matches plus sc fx s0 p (Real neg (number_value ip fp e)) rest.
Proof.
  intros N. destruct (number_longest _ _ _ _ _ _ _ (std_plain _ _ _) N) as (p & NT & E & L).
  exists p. split; [exact E|]. split; [apply number_subject; [exact SF|]; eauto|].
  intros p' m' rest' E' SU'. destruct m' as [n r|n|n].
  - apply number_subject in SU'; [|exact SF]. destruct SU' as (ip2 & fp2 & e2 & NT2 & _). exact (L _ _ _ _ _ _ E' NT2).
  - exfalso. destruct (subject_special plus sc fx s0 p' _ rest' E' SU' ltac:(discriminate)) as (n2 & k2 & r2 & _ & SP2 & _).
    exact (special_no_number _ _ _ _ _ _ _ _ _ _ _ _ SP2 N).
  - exfalso. destruct (subject_special plus sc fx s0 p' _ rest' E' SU' ltac:(discriminate)) as (n2 & k2 & r2 & _ & SP2 & _).
    exact (special_no_number _ _ _ _ _ _ _ _ _ _ _ _ SP2 N).
Qed.

Lemma std_real p neg r rest : t <> F16 -> matches plus sc fx s0 p (Real neg r) rest ->
  exists x v, from_chars_float c u t s (std_flags sc fx plus ws) = Ok {| r_ptr := rest; r_ec := x; r_value := Some v |} /\
    read_as (format_of t) (Real neg r) x v.
Proof.
  intros NF (E & SU & L). apply number_subject in SU; [|exact SF]. destruct SU as (ip & fp & e & NT & ->).
  destruct (number_accepts (std_rules plus sc fx) s0 p rest neg ip fp e (std_plain _ _ _) (std_usual _ _ _) E NT
      ltac:(cbn; discriminate)) as (n2 & ip2 & fp2 & e2 & r2 & N2).
  destruct (number_longest _ _ _ _ _ _ _ (std_plain _ _ _) N2) as (p2 & NT2 & L2).
  destruct (longest_unique (std_rules plus sc fx) s0 p rest p2 r2 neg ip fp e n2 ip2 fp2 e2 (std_plain _ _ _) NT) as (<- & <- & <- & <- & <- & <-).
  { split; [exact E|]. intros p' rest' n' ip' fp' e' E' NT'. refine (L _ (Real n' (number_value ip' fp' e')) _ E' _).
    apply number_subject; [exact SF|]. eauto. }
  { exact NT2. }
  { exact L2. }
  destruct (number_main c u t o s s0 neg ip fp e rest NF std_good std_starts) as (b & x & EQ & NR & RR).
  { rewrite std_rules_of. exact N2. }
  { left. exact LEN. }
  exists x, (with_sign (format_of t) neg b). split; [exact EQ|]. cbn [read_as]. exists b. split; [reflexivity|]. split; [exact NR|]. exact RR.
Qed.

Lemma std_special_read p m rest : (forall neg r, m <> Real neg r) -> matches plus sc fx s0 p m rest ->
  exists x v, from_chars_float c u t s (std_flags sc fx plus ws) = Ok {| r_ptr := rest; r_ec := x; r_value := Some v |} /\
    read_as (format_of t) m x v.
Proof.
  intros NR (E & SU & L).
  destruct (subject_special plus sc fx s0 p m rest E SU NR) as (neg & k & r2 & -> & SP & L2).
  destruct (special_subject plus sc fx s0 neg k r2 SP) as (p2 & E2 & SU2).
  assert (rest = r2).
  { pose proof (L _ _ _ E2 SU2) as L3.
    assert (length s0 = (length p + length rest)%nat) by (rewrite E, app_length; reflexivity).
    assert (length s0 = (length p2 + length r2)%nat) by (rewrite E2, app_length; reflexivity).
    rewrite E in E2. apply (f_equal (skipn (length p))) in E2.
    replace (length p) with (length p2) in E2 at 2 by lia.
    rewrite !skipn_app, !skipn_all, !Nat.sub_diag in E2. exact E2. }
  subst r2.
  destruct (from_chars_special c u t o s s0 rest neg k std_good std_starts std_special) as (b & EQ & IS).
  { rewrite std_rules_of. exact SP. }
  exists Success, (with_sign (format_of t) neg b). split; [exact EQ|].
  destruct k; cbn [kind_meaning read_as is_special] in *; (split; [reflexivity|]); [congruence|eauto].
Qed.

Lemma std_nothing : no_match plus sc fx s0 ->
  from_chars_float c u t s (std_flags sc fx plus ws) = Ok {| r_ptr := s0; r_ec := InvalidArgument; r_value := None |}.
Proof.
  intros NM. refine (from_chars_invalid c u t o s s0 std_good std_starts _ _); rewrite std_rules_of.
  - intros neg ip fp e rest N. destruct (number_matches _ _ _ _ _ N) as (p & E & SU & _). exact (NM _ _ _ E SU).
  - intros _ neg k rest SP. destruct (special_matches _ _ _ SP) as (p & E & SU & _). exact (NM _ _ _ E SU).
Qed.

Lemma std_exists : (exists p m rest, matches plus sc fx s0 p m rest) \/ no_match plus sc fx s0.
Proof.
  destruct (number_or_not c u o s s0 std_good std_starts) as [(neg & ip & fp & e & rest & N)|NN].
  - rewrite std_rules_of in N. destruct (number_matches _ _ _ _ _ N) as (p & M). left. eauto.
  - destruct (other_main c u t o s s0 std_good std_starts NN) as [(A & _)|[(_ & NS & _)|(neg & k & rest & _ & SP & _)]].
    + rewrite std_special in A. discriminate A.
    + right. rewrite std_rules_of in NN, NS. intros p m rest E SU. destruct m as [n r|n|n].
      * apply number_subject in SU; [|exact SF]. destruct SU as (ip & fp & e & NT & _).
        destruct (number_accepts (std_rules plus sc fx) s0 p rest n ip fp e (std_plain _ _ _) (std_usual _ _ _) E NT
          ltac:(cbn; discriminate)) as (n2 & ip2 & fp2 & e2 & r2 & N2). exact (NN _ _ _ _ _ N2).
      * destruct (subject_special plus sc fx s0 p _ rest E SU ltac:(discriminate)) as (n2 & k2 & r2 & _ & SP & _). exact (NS _ _ _ SP).
      * destruct (subject_special plus sc fx s0 p _ rest E SU ltac:(discriminate)) as (n2 & k2 & r2 & _ & SP & _). exact (NS _ _ _ SP).
    + rewrite std_rules_of in SP. destruct (special_matches _ _ _ SP) as (p & M). left. eauto.
Qed.
End Reading.

(** from_chars for double, float and bfloat16 and every character type (for
    a signed 32-bit wchar_t without the code units of findings 5 and 6, none of which
    is a character): the longest match is read as the standard says, no match
    is an invalid argument reported at the start, and one of the two is the case. *)
Theorem from_chars_standard :
  forall (c : cfg) (u : uc) (t : ftype) (sc fx plus ws : bool) (s s0 : list Z),
  macro_leading_plus c = false -> macro_skip_ws c = false -> t <> F16 -> sc || fx = true -> Forall (code_unit u) s ->
  (u = Wchar_s32 -> Forall (fun ch => - 2 ^ 31 + 48 <= ch /\ (ws = true -> ch < 0 -> space (ch mod 256) = false)) s) ->
  Z.of_nat (length s) < 268000000 -> (if ws then without_spaces s s0 else s0 = s) ->
  let call := from_chars_float c u t s (std_flags sc fx plus ws) in
  (forall p m rest, matches plus sc fx s0 p m rest ->
     exists x v, call = Ok {| r_ptr := rest; r_ec := x; r_value := Some v |} /\ read_as (format_of t) m x v) /\
  (no_match plus sc fx s0 -> call = Ok {| r_ptr := s0; r_ec := InvalidArgument; r_value := None |}) /\
  ((exists p m rest, matches plus sc fx s0 p m rest) \/ no_match plus sc fx s0).
Proof.
  intros c u t sc fx plus ws s s0 NP NW NF SF CU UU LEN ST call. split; [|split].
  - intros p m rest M. destruct m as [neg r|neg|neg].
    + eapply std_real; eassumption.
    + eapply std_special_read; try eassumption. discriminate.
    + eapply std_special_read; try eassumption. discriminate.
  - intros NM. apply std_nothing; assumption.
  - eapply std_exists; eassumption.
Qed.
Print Assumptions from_chars_standard.

(** ** The standard leaves no choice but the NaN *)

Lemma subject_unique plus sc fx p m m' : sc || fx = true -> subject plus sc fx p m -> subject plus sc fx p m' -> m = m'.
Proof.
  intros SF SU SU'.
  assert (NUM : forall n r, subject plus sc fx p (Real n r) ->
    exists ip fp e, number (std_rules plus sc fx) p n ip fp e [] /\ number_text (std_rules plus sc fx) p n ip fp e /\ r = number_value ip fp e).
  { intros n r H. apply number_subject in H; [|exact SF]. destruct H as (ip & fp & e & NT & ->).
    exists ip, fp, e. split; [apply number_text_number; [apply std_plain|exact NT]|auto]. }
  assert (SPE : forall q, subject plus sc fx p q -> (forall n r, q <> Real n r) -> exists n k, q = kind_meaning k n /\ special plus p n k []).
  { intros q H NR. destruct (subject_special plus sc fx p p q [] (eq_sym (app_nil_r p)) H NR) as (n & k & r & E & SP & L).
    cbn [length] in L. destruct r; [|cbn [length] in L; lia]. eauto. }
  assert (MIX : forall n r q, subject plus sc fx p (Real n r) -> subject plus sc fx p q -> exists n' r', q = Real n' r').
  { intros n r [n' r'|n'|n'] H H'; [eauto| |]; exfalso; destruct (NUM _ _ H) as (ip & fp & e & N & _ & _);
      destruct (SPE _ H' ltac:(discriminate)) as (n2 & k2 & _ & SP); exact (special_no_number _ _ _ _ _ _ _ _ _ _ _ _ SP N). }
  assert (LONG : longest_number (std_rules plus sc fx) p p []).
  { split; [symmetry; apply app_nil_r|]. intros p' rest' ? ? ? ? E _. rewrite E, app_length. lia. }
  destruct m as [n r|n|n]; [|destruct m' as [n' r'|n'|n']..].
  - destruct (MIX _ _ _ SU SU') as (n' & r' & ->). destruct (NUM _ _ SU) as (ip & fp & e & _ & N & ->), (NUM _ _ SU') as (ip' & fp' & e' & _ & N' & ->).
    destruct (longest_unique (std_rules plus sc fx) p p [] p [] n ip fp e n' ip' fp' e' (std_plain _ _ _) N LONG N' LONG) as (_ & _ & <- & <- & <- & <-). reflexivity.
  - destruct (MIX _ _ _ SU' SU) as (? & ? & ?). discriminate.
  - destruct (SPE _ SU ltac:(discriminate)) as (n1 & k1 & E1 & SP1), (SPE _ SU' ltac:(discriminate)) as (n2 & k2 & E2 & SP2).
    destruct (special_unique _ _ _ _ _ _ _ _ SP1 SP2) as (<- & <- & _). congruence.
  - destruct (SPE _ SU ltac:(discriminate)) as (n1 & k1 & E1 & SP1), (SPE _ SU' ltac:(discriminate)) as (n2 & k2 & E2 & SP2).
    destruct (special_unique _ _ _ _ _ _ _ _ SP1 SP2) as (<- & <- & _). congruence.
  - destruct (MIX _ _ _ SU' SU) as (? & ? & ?). discriminate.
  - destruct (SPE _ SU ltac:(discriminate)) as (n1 & k1 & E1 & SP1), (SPE _ SU' ltac:(discriminate)) as (n2 & k2 & E2 & SP2).
    destruct (special_unique _ _ _ _ _ _ _ _ SP1 SP2) as (<- & <- & _). congruence.
  - destruct (SPE _ SU ltac:(discriminate)) as (n1 & k1 & E1 & SP1), (SPE _ SU' ltac:(discriminate)) as (n2 & k2 & E2 & SP2).
    destruct (special_unique _ _ _ _ _ _ _ _ SP1 SP2) as (<- & <- & _). congruence.
Qed.

Lemma split_unique (p p' r r' : list Z) : p ++ r = p' ++ r' -> length p = length p' -> p = p' /\ r = r'.
Proof.
  revert p'. induction p as [|x p IH]; intros [|y p'] E L; try discriminate L; [auto|].
  cbn [app] in E. injection E as <- E. destruct (IH p' E ltac:(cbn [length] in L; lia)) as (<- & <-). auto.
Qed.

(** Any two functions that read as the standard says agree: same characters
    consumed, same code, same bits - but for the payload of a NaN, of the same sign. *)
Theorem standard_determines_result :
  forall (t : ftype) (sc fx plus : bool) (s p p' rest rest' : list Z) (m m' : meaning) (x x' : ec) (v v' : Z),
  sc || fx = true ->
  matches plus sc fx s p m rest -> read_as (format_of t) m x v ->
  matches plus sc fx s p' m' rest' -> read_as (format_of t) m' x' v' ->
  p = p' /\ rest = rest' /\ x = x' /\
  (v = v' \/ exists neg b b', v = with_sign (format_of t) neg b /\ v' = with_sign (format_of t) neg b' /\
    is_quiet_nan (format_of t) b /\ is_quiet_nan (format_of t) b').
Proof.
  intros t sc fx plus s p p' rest rest' m m' x x' v v' SF (E & SU & L) RA (E' & SU' & L') RA'.
  pose proof (L _ _ _ E' SU') as L1. pose proof (L' _ _ _ E SU) as L2.
  rewrite E in E'. destruct (split_unique _ _ _ _ E' ltac:(lia)) as (<- & <-).
  split; [reflexivity|]. split; [reflexivity|].
  rewrite <- (subject_unique plus sc fx p m m' SF SU SU') in RA'. clear L L' L1 L2 E' SU SU'.
  destruct m as [neg r|neg|neg]; cbn [read_as] in RA, RA'.
  - destruct RA as (b & -> & NE & X1 & X2), RA' as (b' & -> & NE' & X1' & X2').
    pose proof (nearest_even_unique t r b b' NE NE') as <-. split; [|left; reflexivity].
    destruct X1 as [->| ->], X1' as [->| ->]; try reflexivity; exfalso.
    + destruct X2' as (H & _). specialize (H eq_refl). apply X2 in H. discriminate H.
    + destruct X2 as (H & _). specialize (H eq_refl). apply X2' in H. discriminate H.
  - destruct RA as (-> & ->), RA' as (-> & ->). auto.
  - destruct RA as (-> & b & -> & Q), RA' as (-> & b' & -> & Q'). split; [reflexivity|]. right. exists neg, b, b'. auto.
Qed.
Print Assumptions standard_determines_result.

(** ** C75: integer types *)

Lemma base_digit_minus base : ~ base_digit base 45.
Proof. intros (d & E & _). discriminate E. Qed.

Lemma base_digit_run base ds rest ds' rest' : Forall (base_digit base) ds -> Forall (base_digit base) ds' ->
  not_at (base_digit base) rest -> ds ++ rest = ds' ++ rest' -> (length ds' <= length ds)%nat.
Proof.
  intros A. revert ds'. induction A as [|d ds D A IH]; intros [|d' ds'] A' NA E; cbn [length]; try lia.
  - exfalso. cbn [app] in E. subst rest. inversion A'; subst. cbn in NA. contradiction.
  - cbn [app] in E. injection E as <- E. apply Forall_inv_tail in A'. specialize (IH _ A' NA E). lia.
Qed.

(** The text [int_text] describes is the longest subject. *)
Lemma int_text_matches st base s neg ds rest : int_text st false base s neg ds rest ->
  (ds <> [] -> int_matches st base s ((if neg then [45] else []) ++ ds) (int_value base neg ds) rest) /\
  (ds = [] -> int_no_match st base s).
Proof.
  intros (s1 & SG & (-> & A & NA)).
  assert (K : forall p v r, s = p ++ r -> int_subject st base p v ->
    ds <> [] /\ (length p <= length ((if neg then [45%Z] else []) ++ ds))%nat).
  { intros p v r E SU.
    assert (C : (neg = true /\ s = 45 :: ds ++ rest) \/ (neg = false /\ s = ds ++ rest /\
      not_at (fun ch => (ch = 45 /\ st = true) \/ (ch = 43 /\ false = true)) s)).
    { inversion SG as [? H|? H|? N0]; [left; auto|discriminate H|right; auto]. }
    destruct C as [(-> & C)|(-> & C & N0)]; rewrite E in C.
    - destruct SU as [ds' A' N'|ds' S' A' N'].
      + destruct ds' as [|ch ds']; [contradiction|]. injection C as -> _. apply Forall_inv in A'. destruct (base_digit_minus _ A').
      + cbn [app] in C. injection C as C. symmetry in C. pose proof (base_digit_run _ _ _ _ _ A A' NA C). split; [|cbn [app length]; lia].
        destruct ds; [destruct ds'; [contradiction|cbn [length] in *; lia]|discriminate].
    - destruct SU as [ds' A' N'|ds' S' A' N'].
      + symmetry in C. pose proof (base_digit_run _ _ _ _ _ A A' NA C). split; [|cbn [app length]; lia].
        destruct ds; [destruct ds'; [contradiction|cbn [length] in *; lia]|discriminate].
      + exfalso. rewrite E in N0. cbn in N0. apply N0. auto. }
  split.
  - intros ND. split; [|split].
    + inversion SG; subst; [reflexivity|discriminate|reflexivity].
    + inversion SG; subst; [|discriminate|]; cbn [app int_value]; [apply int_negative|apply int_positive]; try reflexivity; assumption.
    + intros p v r E SU. destruct (K p v r E SU) as (_ & L). exact L.
  - intros -> p v r E SU. destruct (K p v r E SU) as (N & _). contradiction.
Qed.

Lemma int_subject_value st base p v v' : int_subject st base p v -> int_subject st base p v' -> v = v'.
Proof.
  intros S1 S2. inversion S1; subst; inversion S2; subst; try reflexivity.
  - match goal with H : Forall _ (45 :: _) |- _ => apply Forall_inv in H; destruct (base_digit_minus _ H) end.
  - match goal with H : Forall _ (45 :: _) |- _ => apply Forall_inv in H; destruct (base_digit_minus _ H) end.
Qed.

Lemma int_matches_unique st base s p v r p' v' r' :
  int_matches st base s p v r -> int_matches st base s p' v' r' -> p = p' /\ v = v' /\ r = r'.
Proof.
  intros (E & SU & L) (E' & SU' & L'). pose proof (L _ _ _ E' SU'). pose proof (L' _ _ _ E SU).
  assert (p = p' /\ r = r') as (<- & <-).
  { assert (LL : length p = length p') by lia. rewrite E in E'. split.
    - apply (f_equal (firstn (length p))) in E'. rewrite LL in E' at 2.
      rewrite !firstn_app, !firstn_all, !Nat.sub_diag, !firstn_O, !app_nil_r in E'. exact E'.
    - apply (f_equal (skipn (length p))) in E'. rewrite LL in E' at 2.
      rewrite !skipn_app, !skipn_all, !Nat.sub_diag in E'. exact E'. }
  split; [reflexivity|]. split; [|reflexivity]. eapply int_subject_value; eassumption.
Qed.

(** from_chars for integers: value, code and ptr as the standard says; on an
    error the destination keeps its value.  For 64-bit types out-of-range values that
    go [unnoticed] (C16, C33) are excepted. *)
Theorem from_chars_int_standard :
  forall (c : cfg) (u : uc) (T : ity) (base : Z) (s : list Z),
  macro_leading_plus c = false -> macro_skip_ws c = false -> int_type T -> 2 <= base <= 36 -> Forall (code_unit u) s ->
  let call := from_chars_int c u T s base in
  (forall p v rest, int_matches (i_signed T) base s p v rest -> in_int_range (i_signed T) (i_bits T) v ->
     call = Ok {| r_ptr := rest; r_ec := Success; r_value := Some v |}) /\
  (forall p v rest, int_matches (i_signed T) base s p v rest -> ~ in_int_range (i_signed T) (i_bits T) v ->
     (i_bits T <= 32 \/ ~ unnoticed base (int_limit (i_signed T) (i_bits T) (v <? 0)) (Z.abs v)) ->
     call = Ok {| r_ptr := rest; r_ec := OutOfRange; r_value := None |}) /\
  (int_no_match (i_signed T) base s -> call = Ok {| r_ptr := s; r_ec := InvalidArgument; r_value := None |}) /\
  ((exists p v rest, int_matches (i_signed T) base s p v rest) \/ int_no_match (i_signed T) base s).
Proof.
  intros c u T base s NP NW IT B CU call.
  set (o := {| o_format := f_general; o_decimal_point := 46; o_base := base |}).
  assert (SK : skips_space c o = false) by (unfold skips_space, o; cbn [o_format]; rewrite NW; reflexivity).
  assert (LP : leading_plus (rules_of c o) = false) by (unfold rules_of, o; cbn [o_format leading_plus]; rewrite NP; reflexivity).
  assert (G : good_int_text c u o s) by (split; [exact CU|]; rewrite SK; discriminate).
  assert (SA : starts_at c o s s) by (unfold starts_at; rewrite SK; reflexivity).
  destruct (int_text_exists (i_signed T) false base s B) as (neg & ds & rest & TX).
  destruct (int_text_matches _ _ _ _ _ _ TX) as (M & NM). rewrite <- LP in TX.
  assert (NE : forall p v r, int_matches (i_signed T) base s p v r -> ds <> []).
  { intros p v r (E & SU & _) ->. exact (NM eq_refl _ _ _ E SU). }
  split; [|split; [|split]].
  - intros p v r M' IR. pose proof (NE _ _ _ M') as ND. destruct (int_matches_unique _ _ _ _ _ _ _ _ _ M' (M ND)) as (_ & -> & ->).
    exact (from_chars_int64_in_range c u T o s s neg ds rest IT G SA B TX ND IR).
  - intros p v r M' IR EX. pose proof (NE _ _ _ M') as ND. destruct (int_matches_unique _ _ _ _ _ _ _ _ _ M' (M ND)) as (_ & -> & ->).
    destruct EX as [B32|NU].
    + exact (proj2 (from_chars_int_exact c u T o s s neg ds rest IT B32 G SA B TX ND) IR).
    + refine (proj2 (from_chars_int64_partial c u T o s s neg ds rest IT G SA B TX ND _) IR).
      change (o_base o) with base. intros U. apply NU.
      assert (0 < base_value base ds) by (destruct U as (k & _ & (_ & U) & _); lia).
      unfold int_value. destruct neg.
      * replace (- base_value base ds <? 0) with true by (symmetry; apply Z.ltb_lt; lia). rewrite Z.abs_opp, Z.abs_eq by lia. exact U.
      * replace (base_value base ds <? 0) with false by (symmetry; apply Z.ltb_ge; lia). rewrite Z.abs_eq by lia. exact U.
  - intros NM'. destruct ds as [|d ds].
    + exact (from_chars_int_invalid c u T o s s neg rest IT G SA B TX).
    + exfalso. destruct (M ltac:(discriminate)) as (E & SU & _). exact (NM' _ _ _ E SU).
  - destruct ds as [|d ds]; [right; apply NM; reflexivity|]. left. do 3 eexists. apply M. discriminate.
Qed.
Print Assumptions from_chars_int_standard.

(** The hypotheses are met: "12.5e+3x", "-InFinity!", " +nan(a)b" with both extra
    flags, and "+1", which does not match; "-0129" in base 8 for int. *)
Lemma read_match c t (sc fx plus ws : bool) s s0 rest x v :
  macro_leading_plus c = false -> macro_skip_ws c = false -> t <> F16 -> sc || fx = true ->
  Forall (code_unit Char_s) s -> Z.of_nat (length s) < 268000000 -> (if ws then without_spaces s s0 else s0 = s) ->
  from_chars_float c Char_s t s (std_flags sc fx plus ws) = Ok {| r_ptr := rest; r_ec := x; r_value := Some v |} ->
  exists p m, matches plus sc fx s0 p m rest /\ read_as (format_of t) m x v.
Proof.
  intros NP NW NF SF CU LEN ST E.
  destruct (from_chars_standard c Char_s t sc fx plus ws s s0 NP NW NF SF CU ltac:(discriminate) LEN ST) as (H1 & H2 & [(p & m & r & M)|NM]).
  - exists p, m. destruct (H1 p m r M) as (x' & v' & E' & RA). rewrite E in E'. injection E' as -> -> ->. auto.
  - specialize (H2 NM). rewrite E in H2. discriminate H2.
Qed.

Ltac units := repeat (apply Forall_cons; [unfold code_unit; cbn; lia|]); apply Forall_nil.

Example standard_met :
  (exists p m, matches false true true [49; 50; 46; 53; 101; 43; 51; 120] p m [120] /\ read_as binary64 m Success 4668097562002063360) /\
  (exists p m, matches false true true [45; 73; 110; 70; 105; 110; 105; 116; 121; 33] p m [33] /\
     read_as binary64 m Success (2 ^ 63 + 2047 * 2 ^ 52)) /\
  (exists p m, matches true true true [43; 110; 97; 110; 40; 97; 41; 98] p m [98] /\ read_as binary32 m Success 2143289344) /\
  no_match false true true [43; 49].
Proof.
  split; [|split; [|split]].
  - apply (read_match cfg_x86_64 F64 true true false false [49; 50; 46; 53; 101; 43; 51; 120]); try reflexivity;
      [discriminate|units].
  - apply (read_match cfg_x86_64 F64 true true false false [45; 73; 110; 70; 105; 110; 105; 116; 121; 33]); try reflexivity;
      [discriminate|units].
  - apply (read_match cfg_x86_64 F32 true true true true [32; 43; 110; 97; 110; 40; 97; 41; 98]); try reflexivity;
      [discriminate|units|].
    exists [32]. split; [reflexivity|]. split; [repeat constructor|]. cbn. discriminate.
  - destruct (from_chars_standard cfg_x86_64 Char_s F64 true true false false [43; 49] [43; 49] eq_refl eq_refl
      ltac:(discriminate) eq_refl ltac:(units) ltac:(discriminate) ltac:(reflexivity) eq_refl) as (H1 & _ & [(p & m & r & M)|NM]); [|exact NM].
    destruct (H1 p m r M) as (x & v & E & _). vm_compute in E. discriminate E.
Qed.

Example int_standard_met : int_type int32_type /\ int_matches true 8 [45; 48; 49; 50; 57] [45; 48; 49; 50] (-10) [57] /\
  in_int_range true 32 (-10).
Proof.
  split; [|split].
  - split; [cbn; tauto|]. repeat split; discriminate.
  - refine (proj1 (int_text_matches true 8 [45; 48; 49; 50; 57] true [48; 49; 50] [57] _) ltac:(discriminate)).
    exists [48; 49; 50; 57]. split; [constructor; reflexivity|]. split; [reflexivity|]. split.
    + repeat constructor; eexists; (split; [reflexivity|lia]).
    + intros (d & E & L). injection E as <-. lia.
  - cbn. lia.
Qed.
