(** Property C87: which part of a text a result depends on, for every text and every option set. *)
From Verif Require Import Machine Config Chars ParseNumber FromChars Ints SpecFloat FloatBridge SpecGrammar SpecApi SpecRel SpecInt SpecIntApi
  SpecCall SpecIntCall Scan ParseSpec Special FloatMaster FloatApi FloatRel Props_Ints Props_Relations Props_Texts Props_Stream Props_Call Props_IntCall
  Props_Pow10.
Open Scope Z_scope.

(** ** Where the digits end, when the text behind that place is exchanged *)
Section Exchange.
Variables (R : rules) (r r' : list Z).

Lemma app_not_nil_l (a b : list Z) : b <> [] -> a ++ b <> [].
Proof. intros N E. apply app_eq_nil in E. tauto. Qed.

Lemma not_at_head P b : b <> [] -> not_at P (b ++ r) -> not_at P (b ++ r').
Proof. destruct b; [congruence|]. intros _ H. exact H. Qed.

Lemma signed_swap s n b : b <> [] -> signed R s n (b ++ r) -> exists a, s = a ++ r /\ a <> [] /\ signed R (a ++ r') n (b ++ r').
Proof.
  intros NB H. inversion H as [l|l A B|l A]; subst.
  - exists (45 :: b). split; [reflexivity|]. split; [discriminate|]. cbn [app]. apply signed_minus.
  - exists (43 :: b). split; [reflexivity|]. split; [discriminate|]. cbn [app]. apply signed_plus; assumption.
  - exists b. split; [reflexivity|]. split; [exact NB|]. apply signed_none. eapply not_at_head; eassumption.
Qed.

Lemma run_swap s ds b : b <> [] -> run s ds (b ++ r) -> exists a, s = a ++ r /\ a <> [] /\ run (a ++ r') ds (b ++ r').
Proof.
  intros NB (-> & A & N). exists (ds ++ b). split; [apply app_assoc|]. split; [apply app_not_nil_l; exact NB|].
  split; [symmetry; apply app_assoc|]. split; [exact A|]. eapply not_at_head; eassumption.
Qed.

Lemma fraction_swap s hp fp b : b <> [] -> fraction R s hp fp (b ++ r) -> exists a, s = a ++ r /\ a <> [] /\ fraction R (a ++ r') hp fp (b ++ r').
Proof.
  intros NB H. inversion H as [l ? ? RU|l N]; subst.
  - destruct (run_swap _ _ _ NB RU) as (a & -> & NA & RU'). exists (point R :: a). split; [reflexivity|]. split; [discriminate|].
    cbn [app]. apply fraction_some. exact RU'.
  - exists b. split; [reflexivity|]. split; [exact NB|]. apply fraction_none. eapply not_at_head; eassumption.
Qed.

Lemma exp_mark_swap s b : b <> [] -> exp_mark R s (b ++ r) -> exists a, s = a ++ r /\ a <> [] /\ exp_mark R (a ++ r') (b ++ r').
Proof.
  intros NB H. inversion H as [ch l A B|ch l A B|ch l A B E]; subst.
  - exists (ch :: b). split; [reflexivity|]. split; [discriminate|]. apply mark_e; assumption.
  - exists (ch :: b). split; [reflexivity|]. split; [discriminate|]. apply mark_d; assumption.
  - exists b. split; [auto|]. split; [exact NB|]. destruct b as [|y b]; [congruence|]. cbn [app] in *.
    injection H0 as -> _. apply mark_sign; assumption.
Qed.

Lemma exp_sign_swap s n b : b <> [] -> exp_sign s n (b ++ r) -> exists a, s = a ++ r /\ a <> [] /\ exp_sign (a ++ r') n (b ++ r').
Proof.
  intros NB H. inversion H as [l|l|l N]; subst.
  - exists (45 :: b). split; [reflexivity|]. split; [discriminate|]. apply exp_minus.
  - exists (43 :: b). split; [reflexivity|]. split; [discriminate|]. apply exp_plus.
  - exists b. split; [reflexivity|]. split; [exact NB|]. apply exp_nosign. eapply not_at_head; eassumption.
Qed.

Lemma digits_end_swap s b : b <> [] -> digits_end R s (b ++ r) -> exists a, s = a ++ r /\ a <> [] /\ digits_end R (a ++ r') (b ++ r').
Proof.
  intros NB H.
  inversion H as [n s1 ip ? A B|n s1 ip s2 fp ? A B J C|n s1 ip s2 hp fp s3 s4 en s5 ds ? A B C M D F G]; subst.
  - destruct (run_swap _ _ _ NB B) as (b1 & -> & N1 & B'). destruct (signed_swap _ _ _ N1 A) as (b2 & -> & N2 & A').
    exists b2. split; [reflexivity|]. split; [exact N2|]. eapply end_integer; eassumption.
  - destruct (run_swap _ _ _ NB C) as (b1 & -> & N1 & C').
    change (point R :: b1 ++ r) with ((point R :: b1) ++ r) in B.
    destruct (run_swap _ _ (point R :: b1) ltac:(discriminate) B) as (b2 & -> & N2 & B').
    destruct (signed_swap _ _ _ N2 A) as (b3 & -> & N3 & A').
    exists b3. split; [reflexivity|]. split; [exact N3|]. eapply end_fraction; eassumption.
  - destruct (run_swap _ _ _ NB G) as (b1 & -> & N1 & G'). destruct (exp_sign_swap _ _ _ N1 F) as (b2 & -> & N2 & F').
    destruct (exp_mark_swap _ _ N2 D) as (b3 & -> & N3 & D'). destruct (fraction_swap _ _ _ _ N3 C) as (b4 & -> & N4 & C').
    destruct (run_swap _ _ _ N4 B) as (b5 & -> & N5 & B'). destruct (signed_swap _ _ _ N5 A) as (b6 & -> & N6 & A').
    exists b6. split; [reflexivity|]. split; [exact N6|]. eapply end_exponent; eassumption.
Qed.
End Exchange.

Lemma digits_end_suffix R s q : digits_end R s q -> exists p, s = p ++ q.
Proof.
  assert (SS : forall s n t, signed R s n t -> exists p, s = p ++ t)
    by (intros ? ? ? H; inversion H; subst; [exists [45]|exists [43]|exists []]; reflexivity).
  assert (RS : forall s n t, run s n t -> exists p, s = p ++ t) by (intros ? n ? (-> & _); exists n; reflexivity).
  assert (FS : forall s hp fp t, fraction R s hp fp t -> exists p, s = p ++ t).
  { intros ? ? ? ? H; inversion H as [? ? ? RU|]; subst; [|exists []; reflexivity].
    destruct (RS _ _ _ RU) as (p & ->). exists (point R :: p). reflexivity. }
  assert (MS : forall s t, exp_mark R s t -> exists p, s = p ++ t)
    by (intros ? ? H; inversion H as [ch| ch|]; subst; [exists [ch]|exists [ch]|exists []]; reflexivity).
  assert (ES : forall s n t, exp_sign s n t -> exists p, s = p ++ t)
    by (intros ? ? ? H; inversion H; subst; [exists [45]|exists [43]|exists []]; reflexivity).
  intros H. inversion H as [n s1 ip ? A B|n s1 ip s2 fp ? A B J C|n s1 ip s2 hp fp s3 s4 en s5 ds ? A B C M D F G]; subst.
  - destruct (RS _ _ _ B) as (a & ->). destruct (SS _ _ _ A) as (b & ->). exists (b ++ a). apply app_assoc.
  - destruct (RS _ _ _ C) as (a & ->). destruct (RS _ _ _ B) as (b & ->). destruct (SS _ _ _ A) as (d & ->).
    exists (d ++ b ++ point R :: a). rewrite <- !app_assoc. reflexivity.
  - destruct (RS _ _ _ G) as (a & ->). destruct (ES _ _ _ F) as (b & ->). destruct (MS _ _ D) as (d & ->).
    destruct (FS _ _ _ _ C) as (f & ->). destruct (RS _ _ _ B) as (g & ->). destruct (SS _ _ _ A) as (h & ->).
    exists (h ++ g ++ f ++ d ++ b ++ a). rewrite <- !app_assoc. reflexivity.
Qed.

(** In a number they end at its end, or before it - except for a letter and a sign without digits. *)
Lemma digits_end_number R s n ip fp e rest q : number R s n ip fp e rest -> digits_end R s q ->
  (length rest <= length q + 2)%nat /\ ((forall s1, ~ exp_mark R rest s1) -> (length rest <= length q)%nat).
Proof.
  intros (s1 & s2 & hp & s3 & SG & RI & F & MO & EX) H.
  assert (L3 : (length rest <= length s3)%nat) by (destruct (exponent_suffix _ _ _ _ EX) as (p & ->); rewrite app_length; lia).
  assert (L2 : (length s3 <= length s2)%nat).
  { inversion F as [? ? ? (-> & _)|]; subst; [cbn [length]; rewrite app_length; lia|lia]. }
  inversion H as [n' t1 ip' ? A B|n' t1 ip' t2 fp' ? A B J C|n' t1 ip' t2 hp' fp' t3 t4 en t5 ds ? A B C M D G K]; subst.
  - destruct (signed_unique _ _ _ _ _ _ SG A) as (<- & <-). destruct (run_unique _ _ _ _ _ RI B) as (<- & <-). split; intros; lia.
  - destruct (signed_unique _ _ _ _ _ _ SG A) as (<- & <-). destruct (run_unique _ _ _ _ _ RI B) as (<- & ->).
    inversion F as [? ? ? RF|? N]; subst; [|cbn in N; congruence]. destruct (run_unique _ _ _ _ _ RF C) as (<- & <-). split; intros; lia.
  - destruct (signed_unique _ _ _ _ _ _ SG A) as (<- & <-). destruct (run_unique _ _ _ _ _ RI B) as (<- & <-).
    destruct (fraction_unique _ _ _ _ _ _ _ _ F C) as (<- & <- & <-).
    inversion EX as [? u1 neg u2 ds' ? EM ES RU NE|? NM FX|? u1 neg u2 EM ES ND FX]; subst.
    + pose proof (exp_mark_unique _ _ _ _ EM D). subst u1. destruct (exp_sign_unique _ _ _ _ _ ES G) as (<- & <-).
      destruct (run_unique _ _ _ _ _ RU K) as (<- & <-). split; intros; lia.
    + destruct (NM _ D).
    + split; [|intros NM; destruct (NM _ D)].
      pose proof (exp_mark_unique _ _ _ _ EM D). subst u1. destruct (exp_sign_unique _ _ _ _ _ ES G) as (<- & <-).
      destruct K as (-> & AD & _). assert (ds = []) as ->.
      { destruct ds as [|d ds]; [reflexivity|]. inversion AD; subst. cbn in ND. contradiction. }
      cbn [app] in *. assert (LE : (length t4 <= S (length q))%nat) by (inversion ES; subst; cbn [length]; lia).
      inversion EM; subst; cbn [length] in *; lia.
Qed.

(** In infinity and NaN there are none; a sign and the separator may stand in front. *)
Lemma digits_end_special R plus s n k rest q : special plus s n k rest -> digits_end R s q -> (length s <= length q + 2)%nat.
Proof.
  intros SP H. pose proof (special_head _ _ _ _ _ SP) as (s1 & a & b & cc & l & E1 & -> & A1 & B1 & C1). clear SP.
  assert (ND : forall x, In x [110; 78; 105; 73; 97; 65; 102; 70; 43; 45] -> digit x = false).
  { intros x I. cbn in I. repeat destruct I as [<-|I]; [reflexivity..|contradiction]. }
  assert (DA : digit a = false) by (apply ND; cbn in *; tauto).
  assert (DB : digit b = false) by (apply ND; cbn in *; tauto).
  assert (SA : a <> 45 /\ a <> 43) by (cbn in A1; split; intros ->; repeat destruct A1 as [A1|A1]; try discriminate A1; contradiction).
  assert (RN : forall x y ds t, digit x = false -> run (x :: y) ds t -> ds = [] /\ t = x :: y).
  { intros x y ds t DX (E & AD & _). destruct ds as [|d ds]; [split; [reflexivity|symmetry; exact E]|].
    injection E as <- _. inversion AD; subst. congruence. }
  (* the text behind the sign *)
  assert (SG : forall n1 t, signed R s n1 t -> (length s <= length t + 1)%nat /\ exists x y, t = x :: y /\ digit x = false /\
     (t = a :: b :: cc :: l \/ (x = 43 \/ x = 45) /\ y = a :: b :: cc :: l)).
  { intros n1 t SG. inversion SG; subst; cbn [length].
    - split; [lia|]. destruct E1 as [E1|[E1|E1]]; [injection E1 as <- _; tauto| |discriminate E1].
      injection E1 as ->. exists a, (b :: cc :: l). auto.
    - split; [lia|]. destruct E1 as [E1|[E1|E1]]; [injection E1 as <- _; tauto|discriminate E1|].
      injection E1 as ->. exists a, (b :: cc :: l). auto.
    - split; [lia|]. destruct E1 as [->|[->| ->]].
      + exists a, (b :: cc :: l). auto.
      + exists 45, (a :: b :: cc :: l). split; [reflexivity|]. split; [reflexivity|]. right. auto.
      + exists 43, (a :: b :: cc :: l). split; [reflexivity|]. split; [reflexivity|]. right. auto. }
  inversion H as [n' t1 ip' ? A B|n' t1 ip' t2 fp' ? A B J C|n' t1 ip' t2 hp' fp' t3 t4 en t5 ds ? A B C M D G K]; subst.
  - destruct (SG _ _ A) as (LS & x & y & -> & DX & _). destruct (RN _ _ _ _ DX B) as (_ & ->). lia.
  - destruct (SG _ _ A) as (LS & x & y & -> & DX & CA). destruct (RN _ _ _ _ DX B) as (_ & E). injection E as <- ->.
    destruct CA as [E|(_ & ->)].
    + injection E as _ ->. destruct (RN _ _ _ _ DB C) as (_ & ->). cbn [length] in *. lia.
    + destruct (RN _ _ _ _ DA C) as (_ & ->). cbn [length] in *. lia.
  - exfalso. destruct (SG _ _ A) as (LS & x & y & -> & DX & CA). destruct (RN _ _ _ _ DX B) as (-> & ->).
    assert (fp' = []).
    { inversion C as [? ? ? RU|]; subst; [|reflexivity].
      destruct CA as [E|(_ & ->)]; [injection E as _ ->; apply (RN _ _ _ _ DB RU)|apply (RN _ _ _ _ DA RU)]. }
    subst fp'. unfold mantissa_ok in M. destruct (json R); [destruct M as (M & _)|]; apply M; reflexivity.
Qed.

(** ** Exchanging the text behind what was read *)
Lemma longer_suffix (s p r q : list Z) : s = p ++ r -> (exists a, s = a ++ q) -> (length r <= length q)%nat -> exists l, q = l ++ r.
Proof.
  intros -> (a & E) L. revert a E. induction p as [|x p IH]; intros a E.
  - destruct a as [|y a]; [exists []; symmetry; exact E|]. exfalso. apply (f_equal (@length Z)) in E. cbn in E. rewrite app_length in E. lia.
  - destruct a as [|y a]; [cbn in E; subst q; exists (x :: p); reflexivity|]. injection E as _ E. exact (IH a E).
Qed.


Lemma too_small_swap u R p r r' ch l : u = Wchar_s32 -> digits_end R (p ++ r') ((ch :: l) ++ r') -> too_small ch = true ->
  undefined u R (p ++ r).
Proof.
  intros EU DE T. split; [exact EU|].
  destruct (digits_end_swap R r' r _ (ch :: l) ltac:(discriminate) DE) as (a & E & _ & DE').
  apply app_inv_tail in E. subst a. exists ch, (l ++ r). split; [exact DE'|exact T].
Qed.

Lemma no_mark R s : number_ends (point R) s -> forall s1, ~ exp_mark R s s1.
Proof. intros N s1 M. inversion M as [ch l A B|ch l A B|ch l A B]; subst; cbn in N; apply N; right; right; cbn; intuition subst; tauto. Qed.

(** [good_after u r]: the text does not start with one of the 48 smallest values of wchar_t. *)
Definition good_after (u : uc) (r : list Z) : Prop := u = Wchar_s32 -> not_at (fun ch => too_small ch = true) r.

Lemma number_defined u R p neg ip fp e r r' : ~ undefined u R (p ++ r) -> number R (p ++ r') neg ip fp e r' ->
  number_ends (point R) r' -> good_after u r' -> ~ undefined u R (p ++ r').
Proof.
  intros ND N NE GA (EU & ch & t & DE & T). destruct (digits_end_number _ _ _ _ _ _ _ _ N DE) as (_ & L).
  specialize (L (no_mark _ _ NE)). destruct (longer_suffix _ _ _ _ eq_refl (digits_end_suffix _ _ _ DE) L) as ([|y l] & E).
  - cbn in E. subst r'. specialize (GA EU). cbn in GA. congruence.
  - injection E as <- ->. apply ND. eapply too_small_swap; eassumption.
Qed.

Lemma number_defined_final u R p neg ip fp e r more : ~ undefined u R p -> number R (p ++ more) neg ip fp e (r ++ more) ->
  (3 <= length r)%nat -> ~ undefined u R (p ++ more).
Proof.
  intros ND N L3 (EU & ch & t & DE & T). destruct (digits_end_number _ _ _ _ _ _ _ _ N DE) as (L & _). rewrite app_length in L.
  destruct (longer_suffix _ _ _ _ eq_refl (digits_end_suffix _ _ _ DE) ltac:(lia) : exists l, ch :: t = l ++ more) as ([|y l] & E).
  - cbn in E. subst more. cbn [length] in L. lia.
  - injection E as <- ->. apply ND. rewrite <- (app_nil_r p). eapply too_small_swap; eassumption.
Qed.

Lemma special_length plus p neg k r : special plus (p ++ r) neg k r -> (3 <= length p)%nat.
Proof.
  intros SP. pose proof (special_trailing plus p neg k r [] SP I) as S0. rewrite app_nil_r in S0.
  destruct (special_head _ _ _ _ _ S0) as (s1 & a & b & cc & l & E & -> & _).
  destruct E as [->|[->| ->]]; cbn [length]; lia.
Qed.

Lemma special_defined u R plus p neg k r r' : ~ undefined u R (p ++ r) -> special plus (p ++ r') neg k r' -> ~ undefined u R (p ++ r').
Proof.
  intros ND SP (EU & ch & t & DE & T). pose proof (digits_end_special R _ _ _ _ _ _ SP DE) as L.
  pose proof (special_length _ _ _ _ _ SP) as L3. rewrite app_length in L.
  destruct (longer_suffix _ _ _ _ eq_refl (digits_end_suffix _ _ _ DE) ltac:(lia) : exists l, ch :: t = l ++ r') as ([|y l] & E).
  - cbn in E. subst r'. cbn [length] in L. lia.
  - injection E as <- ->. apply ND. eapply too_small_swap; eassumption.
Qed.

Lemma special_defined_final u R plus p neg k r more : ~ undefined u R p -> special plus p neg k r -> special plus (p ++ more) neg k (r ++ more) ->
  ~ undefined u R (p ++ more).
Proof.
  intros ND SP0 SP (EU & ch & t & DE & T). pose proof (digits_end_special R _ _ _ _ _ _ SP DE) as L. rewrite app_length in L.
  assert (L3 : (3 <= length p)%nat).
  { destruct (special_head _ _ _ _ _ SP0) as (s1 & a & b & cc & l & E & -> & _). destruct E as [->|[->| ->]]; cbn [length]; lia. }
  destruct (longer_suffix _ _ _ _ eq_refl (digits_end_suffix _ _ _ DE) ltac:(lia) : exists l, ch :: t = l ++ more) as ([|y l] & E).
  - cbn in E. subst more. cbn [length] in L. lia.
  - injection E as <- ->. apply ND. rewrite <- (app_nil_r p). eapply too_small_swap; eassumption.
Qed.

Lemma begins_exchange c o ws p r r' : begins c o ws (p ++ r) -> p <> [] -> begins c o ws (p ++ r').
Proof. unfold begins. destruct (skips_space c o); [|auto]. intros (W & N) NP. split; [exact W|]. destruct p; [congruence|exact N]. Qed.

(** An accepted text, read up to [rest]. *)
Lemma accepted_outcome c u t o s0 rest x v : outcome c u t o s0 (Ok {| r_ptr := rest; r_ec := x; r_value := v |}) -> x <> InvalidArgument ->
  ~ undefined u (rules_of c o) s0 /\ exists p, s0 = p ++ rest /\ p <> [] /\
  ((exists neg ip fp e, number (rules_of c o) s0 neg ip fp e rest /\
      forall s1 rest1, ~ undefined u (rules_of c o) s1 -> number (rules_of c o) s1 neg ip fp e rest1 ->
        outcome c u t o s1 (Ok {| r_ptr := rest1; r_ec := x; r_value := v |})) \/
   (exists neg k, special (leading_plus (rules_of c o)) s0 neg k rest /\
      forall s1 rest1, ~ undefined u (rules_of c o) s1 -> special (leading_plus (rules_of c o)) s1 neg k rest1 ->
        outcome c u t o s1 (Ok {| r_ptr := rest1; r_ec := x; r_value := v |}))).
Proof.
  intros O NX. inversion O as [|neg ip fp e q e' b y ND N RD NM v0 RO RP|neg ip fp e q e' b y ND N RD DP MC W RO RP|neg k q ND AL SP|ND NN NS]; subst.
  - split; [exact ND|]. destruct (number_consumes _ _ _ _ _ _ _ N) as (p & E & NP). exists p. split; [exact E|]. split; [exact NP|]. left.
    exists neg, ip, fp, e. split; [exact N|]. intros s1 rest1 ND1 N1. eapply call_number; eassumption.
  - split; [exact ND|]. destruct (number_consumes _ _ _ _ _ _ _ N) as (p & E & NP). exists p. split; [exact E|]. split; [exact NP|]. left.
    exists neg, ip, fp, e. split; [exact N|]. intros s1 rest1 ND1 N1. eapply call_miscounted; eassumption.
  - split; [exact ND|]. destruct (special_consumes _ _ _ _ _ SP) as (p & E & NP). exists p. split; [exact E|]. split; [exact NP|]. right.
    exists neg, k. split; [exact SP|]. intros s1 rest1 ND1 N1. apply call_special; assumption.
  - congruence.
Qed.

(** C87.  The text behind what was read may be exchanged for any text that cannot continue a number
    or nan or inf: the call reads the same characters and reports and stores the same. *)
Theorem from_chars_every_call_rest :
  forall (c : cfg) (u : uc) (t : ftype) (o : options) (read rest rest' : list Z) (x : ec) (v : option Z),
  Forall (code_unit u) (read ++ rest) -> Z.of_nat (length (read ++ rest)) <= 2 ^ 59 ->
  Forall (code_unit u) (read ++ rest') -> Z.of_nat (length (read ++ rest')) <= 2 ^ 59 ->
  from_chars_float_advanced c u t (read ++ rest) o = Ok {| r_ptr := rest; r_ec := x; r_value := v |} -> x <> InvalidArgument ->
  number_ends (o_decimal_point o) rest' -> special_ends rest' -> good_after u rest' ->
  from_chars_float_advanced c u t (read ++ rest') o = Ok {| r_ptr := rest'; r_ec := x; r_value := v |}.
Proof.
  intros c u t o q rest rest' x v F1 L1 F2 L2 E NX NE SE GA.
  destruct (begins_somewhere c o (q ++ rest)) as (ws & s0 & ES & B & _).
  assert (O : outcome c u t o s0 (Ok {| r_ptr := rest; r_ec := x; r_value := v |})).
  { rewrite ES in F1, L1, E. apply Forall_app in F1. rewrite app_length in L1.
    apply (from_chars_every_call c u t o ws s0); [apply F1|lia|exact B|exact E]. }
  destruct (accepted_outcome _ _ _ _ _ _ _ _ O NX) as (ND & p & E0 & NP & H). subst s0.
  rewrite app_assoc in ES. apply app_inv_tail in ES. subst q. rewrite <- app_assoc in *.
  apply Forall_app in F2. rewrite app_length in L2.
  apply from_chars_every_call; [apply F2|lia|eapply begins_exchange; eassumption|].
  destruct H as [(neg & ip & fp & e & N & K)|(neg & k & SP & K)].
  - pose proof (number_trailing _ _ _ _ _ _ _ rest' N NE) as N'. apply K; [|exact N'].
    eapply number_defined; [exact ND|exact N'|exact NE|exact GA].
  - pose proof (special_trailing _ _ _ _ _ rest' SP SE) as SP'. apply K; [|exact SP']. eapply special_defined; eassumption.
Qed.
Print Assumptions from_chars_every_call_rest.

(** In particular nothing need follow. *)
Corollary from_chars_every_call_read :
  forall (c : cfg) (u : uc) (t : ftype) (o : options) (read rest : list Z) (x : ec) (v : option Z),
  Forall (code_unit u) (read ++ rest) -> Z.of_nat (length (read ++ rest)) <= 2 ^ 59 ->
  from_chars_float_advanced c u t (read ++ rest) o = Ok {| r_ptr := rest; r_ec := x; r_value := v |} -> x <> InvalidArgument ->
  from_chars_float_advanced c u t read o = Ok {| r_ptr := []; r_ec := x; r_value := v |}.
Proof.
  intros c u t o q rest x v F L E NX. pose proof (from_chars_every_call_rest c u t o q rest [] x v) as H. rewrite app_nil_r in H.
  apply H; try assumption; try exact I; [apply Forall_app in F; apply F|rewrite app_length in L; lia|intros _; exact I].
Qed.
Print Assumptions from_chars_every_call_read.

(** More text may be added at the end, whatever it is, if five characters are unread and no
    parenthesis among them is the next; after a number three. *)
Theorem from_chars_every_call_final :
  forall (c : cfg) (u : uc) (t : ftype) (o : options) (s more rest : list Z) (x : ec) (v : option Z),
  Forall (code_unit u) (s ++ more) -> Z.of_nat (length (s ++ more)) <= 2 ^ 59 ->
  from_chars_float_advanced c u t s o = Ok {| r_ptr := rest; r_ec := x; r_value := v |} -> x <> InvalidArgument ->
  (5 <= length rest)%nat /\ not_at (fun ch => ch = 40) rest \/
  (3 <= length rest)%nat /\ (exists ws s0 neg ip fp e, s = ws ++ s0 /\ begins c o ws s0 /\ number (rules_of c o) s0 neg ip fp e rest) ->
  from_chars_float_advanced c u t (s ++ more) o = Ok {| r_ptr := rest ++ more; r_ec := x; r_value := v |}.
Proof.
  intros c u t o s more rest x v F L E NX H.
  destruct (begins_somewhere c o s) as (ws & s0 & -> & B & U0).
  rewrite <- app_assoc in *. apply Forall_app in F. rewrite app_length in L.
  assert (O : outcome c u t o s0 (Ok {| r_ptr := rest; r_ec := x; r_value := v |})).
  { destruct F as (_ & F). apply Forall_app in F. rewrite app_length in L.
    apply (from_chars_every_call c u t o ws s0); [apply F|lia|exact B|exact E]. }
  destruct (accepted_outcome _ _ _ _ _ _ _ _ O NX) as (ND & p & E0 & NP & K).
  assert (NE : s0 <> []) by (rewrite E0; intros X; apply app_eq_nil in X; tauto).
  apply from_chars_every_call; [apply F|lia|rewrite <- (app_nil_r s0) in B; eapply begins_exchange; eassumption|].
  destruct K as [(neg & ip & fp & e & N & K)|(neg & k & SP & K)].
  - assert (L3 : (3 <= length rest)%nat) by (destruct H as [(H & _)|(H & _)]; lia).
    pose proof (number_extend _ _ _ _ _ _ _ more N L3) as N'. apply K; [|exact N']. eapply number_defined_final; eassumption.
  - assert (L5 : (5 <= length rest)%nat /\ not_at (fun ch => ch = 40) rest).
    { destruct H as [H|(_ & ws' & s0' & n & ip & fp & e & ES & B' & N)]; [exact H|exfalso].
      destruct (U0 _ _ ES B') as (_ & ->). exact (special_not_number (rules_of c o) _ _ _ _ _ SP _ _ _ _ _ N). }
    pose proof (special_extend _ _ _ _ _ more SP (proj1 L5) (proj2 L5)) as SP'. apply K; [|exact SP']. eapply special_defined_final; eassumption.
Qed.
Print Assumptions from_chars_every_call_final.

(** ** Integers *)
Lemma int_accepted c o S b s0 rest x v : int_outcome c o S b s0 (Ok {| r_ptr := rest; r_ec := x; r_value := v |}) -> x <> InvalidArgument ->
  2 <= o_base o <= 36 /\ exists neg ds, ds <> [] /\ int_text S (leading_plus (rules_of c o)) (o_base o) s0 neg ds rest /\
    forall s1 rest1, int_text S (leading_plus (rules_of c o)) (o_base o) s1 neg ds rest1 ->
      int_outcome c o S b s1 (Ok {| r_ptr := rest1; r_ec := x; r_value := v |}).
Proof.
  intros O NX. inversion O; subst; try congruence; (split; [assumption|]); exists neg, ds; (split; [assumption|]); (split; [assumption|]); intros s1 rest1 T.
  - eapply int_stored; eassumption.
  - eapply int_refused; eassumption.
  - eapply int_overlooked; eassumption.
Qed.

Lemma int_text_exchange S plus base s neg ds rest rest' : int_text S plus base s neg ds rest -> ds <> [] -> not_at (base_digit base) rest' ->
  exists p, s = p ++ rest /\ p <> [] /\ int_text S plus base (p ++ rest') neg ds rest'.
Proof.
  intros (s1 & SG & -> & AD & _) ND NR.
  assert (NE : ds ++ rest' <> []) by (destruct ds; [congruence|discriminate]).
  inversion SG as [l A|l A|l A]; subst.
  - exists (45 :: ds). split; [reflexivity|]. split; [discriminate|]. exists (ds ++ rest'). split; [apply int_minus; reflexivity || assumption|]. split; [reflexivity|split; assumption].
  - exists (43 :: ds). split; [reflexivity|]. split; [discriminate|]. exists (ds ++ rest'). split; [apply int_plus; reflexivity || assumption|]. split; [reflexivity|split; assumption].
  - exists ds. split; [reflexivity|]. split; [exact ND|]. exists (ds ++ rest'). split; [|split; [reflexivity|split; assumption]].
    apply int_unsigned. destruct ds; [congruence|exact A].
Qed.

(** For integers the text behind what was read may be exchanged for any text that does not start
    with a digit of the base. *)
Theorem from_chars_int_every_call_rest :
  forall (c : cfg) (u : uc) (T : ity) (o : options) (read rest rest' : list Z) (x : ec) (v : option Z),
  some_int_type T -> Forall (code_unit u) (read ++ rest) -> Forall (code_unit u) (read ++ rest') ->
  from_chars_int_advanced c u T (read ++ rest) o = Ok {| r_ptr := rest; r_ec := x; r_value := v |} -> x <> InvalidArgument ->
  not_at (base_digit (o_base o)) rest' ->
  from_chars_int_advanced c u T (read ++ rest') o = Ok {| r_ptr := rest'; r_ec := x; r_value := v |}.
Proof.
  intros c u T o q rest rest' x v IT F1 F2 E NX NR.
  destruct (begins_somewhere c o (q ++ rest)) as (ws & s0 & ES & B & _).
  assert (O : int_outcome c o (i_signed T) (i_bits T) s0 (Ok {| r_ptr := rest; r_ec := x; r_value := v |})).
  { rewrite ES in F1, E. apply Forall_app in F1. apply (from_chars_int_every_call c u T o ws s0); [exact IT|apply F1|exact B|exact E]. }
  destruct (int_accepted _ _ _ _ _ _ _ _ O NX) as (_ & neg & ds & ND & TX & K).
  destruct (int_text_exchange _ _ _ _ _ _ _ rest' TX ND NR) as (p & -> & NP & TX').
  rewrite app_assoc in ES. apply app_inv_tail in ES. subst q. rewrite <- app_assoc in *. apply Forall_app in F2.
  apply from_chars_int_every_call; [exact IT|apply F2|eapply begins_exchange; eassumption|]. apply K. exact TX'.
Qed.
Print Assumptions from_chars_int_every_call_rest.

(** And more text may be added as soon as one character is unread. *)
Theorem from_chars_int_every_call_final :
  forall (c : cfg) (u : uc) (T : ity) (o : options) (s more rest : list Z) (x : ec) (v : option Z),
  some_int_type T -> Forall (code_unit u) (s ++ more) ->
  from_chars_int_advanced c u T s o = Ok {| r_ptr := rest; r_ec := x; r_value := v |} -> x <> InvalidArgument -> rest <> [] ->
  from_chars_int_advanced c u T (s ++ more) o = Ok {| r_ptr := rest ++ more; r_ec := x; r_value := v |}.
Proof.
  intros c u T o s more rest x v IT F E NX NR.
  destruct (begins_somewhere c o s) as (ws & s0 & -> & B & _).
  pose proof F as F0. rewrite <- app_assoc in F. apply Forall_app in F. destruct F as (FW & F). apply Forall_app in F.
  pose proof (proj1 (from_chars_int_every_call c u T o ws s0 _ IT (proj1 F) B) E) as O.
  destruct (int_accepted _ _ _ _ _ _ _ _ O NX) as (_ & neg & ds & ND & TX & K).
  assert (NA : not_at (base_digit (o_base o)) (rest ++ more)).
  { destruct TX as (s1 & _ & _ & _ & N). destruct rest; [congruence|exact N]. }
  destruct (int_text_exchange _ _ _ _ _ _ _ (rest ++ more) TX ND NA) as (p & -> & NP & TX').
  rewrite <- !app_assoc in *. apply from_chars_int_every_call; [exact IT| |eapply begins_exchange; eassumption|apply K; exact TX'].
  apply Forall_app in F0. apply F0.
Qed.
Print Assumptions from_chars_int_every_call_final.

(** ** The hypotheses are met: "1.5x" and "1.5;" with the smallest wchar_t behind the semicolon - directly
    behind the number it makes the call undefined -; "152x" with '5' as separator; "1e+x" with more behind it; "12;". *)
Example unread_example :
  let o := {| o_format := 5; o_decimal_point := 46; o_base := 10 |} in
  let five := {| o_format := 5; o_decimal_point := 53; o_base := 10 |} in
  let f o s := from_chars_float_advanced cfg_x86_64 Wchar_s32 F64 s o in
  let i s := from_chars_int_advanced cfg_x86_64 Wchar_s32 int32_type s o in
  let stored p v := Ok {| r_ptr := p; r_ec := Success; r_value := Some v |} in
  Forall (code_unit Wchar_s32) [49; 46; 53; 120] /\ Forall (code_unit Wchar_s32) [49; 46; 53; 59; - 2 ^ 31] /\
  number_ends 46 [59; - 2 ^ 31] /\ special_ends [59; - 2 ^ 31] /\ good_after Wchar_s32 [59; - 2 ^ 31] /\
  f o [49; 46; 53; 120] = stored [120] 0x3ff8000000000000 /\
  f o [49; 46; 53; 59; - 2 ^ 31] = stored [59; - 2 ^ 31] 0x3ff8000000000000 /\
  f o [49; 46; 53; - 2 ^ 31] = UB /\ ~ good_after Wchar_s32 [- 2 ^ 31] /\
  f five [49; 53; 50; 120] = stored [120] 4639552041121742848 /\ f five [49; 53; 50] = stored [] 4639552041121742848 /\
  f o [49; 101; 43; 120] = stored [101; 43; 120] 0x3ff0000000000000 /\
  (exists ws s0 neg ip fp e, [49; 101; 43; 120] = ws ++ s0 /\ begins cfg_x86_64 o ws s0 /\
     number (rules_of cfg_x86_64 o) s0 neg ip fp e [101; 43; 120]) /\
  f o [49; 101; 43; 120; - 2 ^ 31] = stored [101; 43; 120; - 2 ^ 31] 0x3ff0000000000000 /\
  some_int_type int32_type /\ not_at (base_digit 10) [- 2 ^ 31] /\
  i [49; 50; 59] = stored [59] 12 /\ i [49; 50; - 2 ^ 31] = stored [- 2 ^ 31] 12 /\ i [49; 50; 59; 51] = stored [59; 51] 12.
Proof.
  cbv zeta.
  split; [repeat constructor; vm_compute; congruence|]. split; [repeat constructor; vm_compute; congruence|].
  split; [vm_compute; intuition discriminate|]. split; [vm_compute; intuition discriminate|]. split; [intros _; vm_compute; discriminate|].
  split; [vm_compute; reflexivity|]. split; [vm_compute; reflexivity|]. split; [vm_compute; reflexivity|].
  split; [intros H; specialize (H eq_refl); apply H; reflexivity|].
  split; [vm_compute; reflexivity|]. split; [vm_compute; reflexivity|]. split; [vm_compute; reflexivity|].
  split.
  { exists [], [49; 101; 43; 120], false, [49], [], 0. split; [reflexivity|]. split; [reflexivity|].
    exists [49; 101; 43; 120], [101; 43; 120], false, [101; 43; 120].
    split; [apply signed_none; cbn; intuition discriminate|].
    split; [split; [reflexivity|split; [repeat constructor|cbn; discriminate]]|].
    split; [apply fraction_none; cbn; discriminate|]. split; [discriminate|].
    eapply exponent_dangling; [apply mark_e; [reflexivity|auto]|apply exp_plus|cbn; discriminate|reflexivity]. }
  split; [vm_compute; reflexivity|]. split; [pose proof types_ok as H; rewrite Forall_forall in H; left; apply H; cbn; tauto|].
  split; [intros (d & H & _); vm_compute in H; discriminate H|].
  split; [vm_compute; reflexivity|]. split; vm_compute; reflexivity.
Qed.
