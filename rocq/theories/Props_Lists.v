(** Property C51: reading lists of numbers with repeated calls. *)
From Verif Require Import Machine Config Chars Format ParseNumber DecToBin FromChars Ints WordLemmas
  Rounding ComputeFloat SpecFloat FloatBridge Pow10 SpecGrammar SpecInt SpecApi SpecIntApi SpecText SpecRel SpecLists
  Scan ParseSpec Special
  SlowPath ManyDigits Saturate FloatMaster FloatApi FloatRel IntApi Props_Pow10 Props_Float Props_Relations Props_Texts
  Props_Grammar Props_Spelling Props_Ints Props_IntMore.
Open Scope Z_scope.

(** ** The loops, for any function that behaves well *)

(** On texts with [good], calls are defined, accepted calls consume something,
    and what follows an accepted text does not matter if [ends] holds of it. *)
Definition well_behaved (call : list Z -> res result) (good : list Z -> Prop) : Prop :=
  (forall p q, good (p ++ q) -> good q) /\
  (forall s, good s -> exists r p, call s = Ok r /\ s = p ++ r_ptr r /\ (r_ec r <> InvalidArgument -> p <> [])).

Definition cut_off (call : list Z -> res result) (good ends : list Z -> Prop) : Prop :=
  forall p rest x v, good (p ++ rest) -> call p = Ok {| r_ptr := []; r_ec := x; r_value := v |} -> x <> InvalidArgument ->
    ends rest -> call (p ++ rest) = Ok {| r_ptr := rest; r_ec := x; r_value := v |}.

Definition alone (call : list Z -> res result) (good : list Z -> Prop) : Prop :=
  forall p rest x v, good (p ++ rest) -> call (p ++ rest) = Ok {| r_ptr := rest; r_ec := x; r_value := v |} ->
    x <> InvalidArgument -> call p = Ok {| r_ptr := []; r_ec := x; r_value := v |}.

(** Each text is accepted as a whole, with these results. *)
Definition whole (call : list Z -> res result) (p : list Z) (i : item) : Prop :=
  call p = Ok {| r_ptr := []; r_ec := fst i; r_value := snd i |} /\ fst i <> InvalidArgument.

Lemma join_cons d p p2 l : join d (p :: p2 :: l) = p ++ d :: join d (p2 :: l).
Proof. reflexivity. Qed.

Lemma reads_join call good ends d tail ps is :
  well_behaved call good -> cut_off call good ends ->
  (forall s, ends (d :: s)) -> ends tail -> not_at (fun ch => ch = d) tail ->
  Forall2 (whole call) ps is -> ps <> [] -> good (join d ps ++ tail) -> reads call d (join d ps ++ tail) is tail true.
Proof.
  intros (WS & _) CO ED ET NT F. induction F as [|p [x v] ps is (C & NX) F IH]; intros NE G; [congruence|].
  cbn [fst snd] in C, NX. destruct F as [|p2 i2 ps is C2 F].
  - cbn [join] in *. pose proof (CO _ _ _ _ G C NX ET) as E.
    exact (reads_last call d _ {| r_ptr := tail; r_ec := x; r_value := v |} E NX NT).
  - rewrite join_cons, <- app_assoc in *. rewrite <- app_comm_cons in *.
    pose proof (CO _ _ _ _ G C NX (ED _)) as E.
    refine (reads_next call d _ {| r_ptr := _; r_ec := x; r_value := v |} _ _ _ _ E NX eq_refl _).
    apply IH; [discriminate|]. apply WS in G. apply (WS [d]). exact G.
Qed.

Lemma reads_split call good d s is rest ok :
  well_behaved call good -> alone call good -> good s -> reads call d s is rest ok -> ok = true ->
  exists ps, s = join d ps ++ rest /\ Forall2 (whole call) ps is /\ ps <> [] /\ not_at (fun ch => ch = d) rest.
Proof.
  intros (WS & WD) AL G R. induction R as [s r C I|s r C I N|s r s' l rest ok C I P R IH]; intros OK; [discriminate| |].
  - destruct (WD s G) as (r' & p & C' & E & _). assert (r' = r) by congruence. subst r'. rewrite E in C, G.
    exists [p]. split; [exact E|]. split; [|split; [discriminate|exact N]]. constructor; [|constructor].
    split; [|exact I]. apply (AL p (r_ptr r)); [exact G| |exact I]. rewrite C. destruct r; reflexivity.
  - destruct (WD s G) as (r' & p & C' & E & _). assert (r' = r) by congruence. subst r'. rewrite E in C, G.
    assert (G' : good s'). { apply WS in G. rewrite P in G. exact (WS [d] _ G). }
    destruct (IH G' OK) as (ps & ES & F & NE & N). exists (p :: ps). destruct ps as [|p2 ps]; [congruence|].
    rewrite join_cons, <- app_assoc, <- app_comm_cons, <- ES, <- P. split; [exact E|]. split; [|split; [discriminate|exact N]].
    constructor; [|exact F]. split; [|exact I]. apply (AL p (r_ptr r)); [exact G| |exact I]. rewrite C. destruct r; reflexivity.
Qed.

Lemma invalid_dec (x : ec) : x = InvalidArgument \/ x <> InvalidArgument.
Proof. destruct x; auto; right; discriminate. Qed.

Lemma reads_total call good d s : well_behaved call good -> good s ->
  exists is rest ok, reads call d s is rest ok /\
    2 * Z.of_nat (length is) <= Z.of_nat (length s) + 1 /\ exists p, s = p ++ rest.
Proof.
  intros (WS & WD). remember (length s) as n eqn:EN. revert s EN. induction n as [n IH] using lt_wf_ind. intros s EN G.
  destruct (WD s G) as (r & p & C & E & NP). destruct (invalid_dec (r_ec r)) as [I|I].
  - exists [], (r_ptr r), false. split; [constructor; assumption|]. split; [cbn; lia|eauto].
  - specialize (NP I). assert (LP : (0 < length p)%nat) by (destruct p; [congruence|cbn; lia]).
    assert (LS : length s = (length p + length (r_ptr r))%nat) by (rewrite E at 1; apply app_length).
    destruct (r_ptr r) as [|ch s'] eqn:P; [|destruct (Z.eq_dec ch d) as [->|ND]].
    + exists [(r_ec r, r_value r)], (r_ptr r), true. split; [apply reads_last; try assumption; rewrite P; exact Logic.I|].
      split; [cbn [length]; lia|]. rewrite P. eauto.
    + cbn [length] in LS. assert (G' : good s') by (rewrite E in G; apply WS in G; exact (WS [d] _ G)).
      destruct (IH (length s') ltac:(lia) s' eq_refl G') as (is & rest & ok & R & L & q & Q).
      exists ((r_ec r, r_value r) :: is), rest, ok. split; [eapply reads_next; eassumption|].
      split; [cbn [length]; lia|]. exists (p ++ d :: q). rewrite <- app_assoc, <- app_comm_cons, <- Q. exact E.
    + exists [(r_ec r, r_value r)], (r_ptr r), true. split; [apply reads_last; try assumption; rewrite P; exact ND|].
      split; [cbn [length]; lia|]. rewrite P. eauto.
Qed.

Lemma reads_unique call d s is rest ok is' rest' ok' :
  reads call d s is rest ok -> reads call d s is' rest' ok' -> is = is' /\ rest = rest' /\ ok = ok'.
Proof.
  intros R. revert is' rest' ok'. induction R as [s r C I|s r C I N|s r s' l rest ok C I P R IH];
    intros is' rest' ok' R'; inversion R' as [s2 r2 C2 I2|s2 r2 C2 I2 N2|s2 r2 s2' l2 rest2 ok2 C2 I2 P2 R2]; subst;
    assert (r2 = r) by congruence; subst r2; try contradiction; auto.
  - rewrite P2 in N. destruct (N eq_refl).
  - rewrite P in N2. destruct (N2 eq_refl).
  - assert (s2' = s') by congruence. subst s2'. destruct (IH _ _ _ R2) as (<- & <- & <-). auto.
Qed.

Lemma reads_all_total call good s : well_behaved call good -> good s ->
  exists is rest, reads_all call s is rest /\ (length is <= length s)%nat /\ exists p, s = p ++ rest.
Proof.
  intros (WS & WD). remember (length s) as n eqn:EN. revert s EN. induction n as [n IH] using lt_wf_ind. intros s EN G.
  destruct (WD s G) as (r & p & C & E & NP). destruct (invalid_dec (r_ec r)) as [I|I].
  - exists [], (r_ptr r). split; [constructor; assumption|]. split; [cbn; lia|eauto].
  - specialize (NP I). assert (LP : (0 < length p)%nat) by (destruct p; [congruence|cbn; lia]).
    assert (LS : length s = (length p + length (r_ptr r))%nat) by (rewrite E at 1; apply app_length).
    assert (G' : good (r_ptr r)) by (rewrite E in G; apply WS in G; exact G).
    destruct (IH (length (r_ptr r)) ltac:(lia) _ eq_refl G') as (is & rest & R & L & q & Q).
    exists ((r_ec r, r_value r) :: is), rest. split; [eapply reads_all_next; eassumption|].
    split; [cbn [length]; lia|]. exists (p ++ q). rewrite <- app_assoc, <- Q. exact E.
Qed.

Lemma reads_all_unique call s is rest is' rest' :
  reads_all call s is rest -> reads_all call s is' rest' -> is = is' /\ rest = rest'.
Proof.
  intros R. revert is' rest'. induction R as [s r C I|s r l rest C I R IH];
    intros is' rest' R'; inversion R' as [s2 r2 C2 I2|s2 r2 l2 rest2 C2 I2 R2]; subst;
    assert (r2 = r) by congruence; subst r2; try contradiction; auto.
  destruct (IH _ _ R2) as (<- & <-). auto.
Qed.

(** Texts one after the other. *)
Lemma reads_all_concat call good ends tail t0 ps is :
  well_behaved call good -> cut_off call good ends ->
  Forall (fun p => forall s, ends (p ++ s)) (tl ps) -> ends tail ->
  call tail = Ok {| r_ptr := t0; r_ec := InvalidArgument; r_value := None |} ->
  Forall2 (whole call) ps is -> good (concat ps ++ tail) -> reads_all call (concat ps ++ tail) is t0.
Proof.
  intros (WS & _) CO EP ET CT F. induction F as [|p [x v] ps is (C & NX) F IH]; intros G; cbn [concat app] in *.
  - exact (reads_all_end call _ _ CT eq_refl).
  - cbn [fst snd] in C, NX. rewrite <- app_assoc in *. cbn [tl] in EP.
    assert (EN : ends (concat ps ++ tail)).
    { destruct EP as [|p2 ps E2 _]; [exact ET|]. cbn [concat]. rewrite <- app_assoc. apply E2. }
    assert (E2 : Forall (fun p => forall s, ends (p ++ s)) (tl ps)) by (destruct EP; [constructor|assumption]).
    pose proof (CO _ _ _ _ G C NX EN) as E.
    refine (reads_all_next call _ {| r_ptr := _; r_ec := x; r_value := v |} _ _ E NX _).
    apply IH; [exact E2|]. apply WS in G. exact G.
Qed.

(** ** Floating-point numbers *)
Lemma float_well_behaved c u t o :
  well_behaved (fun s => from_chars_float_advanced c u t s o) (good_text c u o).
Proof.
  split; [intros p q; apply good_suffix|]. intros s G.
  destruct (starts_exists c o s) as (s0 & SA).
  assert (SUF : exists w, s = w ++ s0).
  { unfold starts_at in SA. destruct (skips_space c o); [destruct SA as (w & E & _); eauto|exists []; symmetry; exact SA]. }
  destruct SUF as (w & ES).
  destruct (number_or_not c u o _ s0 G SA) as [(neg & ip & fp & e & r & N)|NN].
  - destruct (number_consumes _ _ _ _ _ _ _ N) as (p & E & NP).
    destruct (float_number_clamped c u t o s s0 neg ip fp e r (good_text_ok _ _ _ _ G) SA N) as (e' & b & y & _ & E' & _).
    eexists; exists (w ++ p). split; [exact E'|]. cbn [r_ptr]. rewrite <- app_assoc, <- E. split; [exact ES|].
    intros _ Q. apply app_eq_nil in Q. tauto.
  - destruct (other_main c u t o s s0 G SA NN) as [(_ & E')|[(_ & _ & E')|(neg & k & r & AS & SP & E')]].
    1,2: eexists; exists w; split; [exact E'|]; cbn [r_ptr r_ec]; split; [exact ES|congruence].
    destruct (special_consumes _ _ _ _ _ SP) as (p & E & NP).
    eexists; exists (w ++ p). split; [exact E'|]. cbn [r_ptr]. rewrite <- app_assoc, <- E. split; [exact ES|].
    intros _ Q. apply app_eq_nil in Q. tauto.
Qed.

Lemma float_cut_off c u t o :
  cut_off (fun s => from_chars_float_advanced c u t s o) (good_text c u o)
    (fun s => number_ends (o_decimal_point o) s /\ special_ends s).
Proof.
  intros p rest x v G E NX (NE & SE).
  apply (from_chars_trailing_text c u t o p [] rest x v); try assumption; rewrite app_nil_r; [|exact E].
  exact (good_text_prefix _ _ _ _ _ G).
Qed.

Lemma float_alone c u t o : plain_point (rules_of c o) ->
  alone (fun s => from_chars_float_advanced c u t s o) (good_text c u o).
Proof. intros PP p rest x v G E NX. exact (from_chars_consumed_only c u t o p rest x v PP G E NX). Qed.

(** ** C51: numbers joined by a delimiter that cannot continue a number.  Every
    one is read as it is read alone, and the loop ends where the list does. *)
Theorem from_chars_delimited :
  forall (c : cfg) (u : uc) (t : ftype) (o : options) (d : Z) (texts : list (list Z)) (items : list item) (tail : list Z),
  good_text c u o (join d texts ++ tail) ->
  number_ends (o_decimal_point o) [d] -> special_ends [d] ->
  number_ends (o_decimal_point o) tail -> special_ends tail -> not_at (fun ch => ch = d) tail ->
  texts <> [] ->
  Forall2 (fun p i => from_chars_float_advanced c u t p o = Ok {| r_ptr := []; r_ec := fst i; r_value := snd i |} /\
                      fst i <> InvalidArgument) texts items ->
  reads (fun s => from_chars_float_advanced c u t s o) d (join d texts ++ tail) items tail true.
Proof.
  intros c u t o d ps is tail G ND SD NT ST TD NE F.
  apply (reads_join _ _ _ d tail ps is (float_well_behaved c u t o) (float_cut_off c u t o)); try assumption.
  - intros s. split; [exact ND|exact SD].
  - split; assumption.
Qed.
Print Assumptions from_chars_delimited.

(** Conversely, a list that is read to its end is such a list; no assumption on
    the delimiter. *)
Theorem from_chars_delimited_only :
  forall (c : cfg) (u : uc) (t : ftype) (o : options) (d : Z) (s : list Z) (items : list item) (rest : list Z),
  plain_point (rules_of c o) -> good_text c u o s ->
  reads (fun s => from_chars_float_advanced c u t s o) d s items rest true ->
  exists texts, s = join d texts ++ rest /\ texts <> [] /\ not_at (fun ch => ch = d) rest /\
    Forall2 (fun p i => from_chars_float_advanced c u t p o = Ok {| r_ptr := []; r_ec := fst i; r_value := snd i |} /\
                        fst i <> InvalidArgument) texts items.
Proof.
  intros c u t o d s is rest PP G R.
  destruct (reads_split _ _ d s is rest true (float_well_behaved c u t o) (float_alone c u t o PP) G R eq_refl)
    as (ps & E & F & NE & N).
  exists ps. repeat split; assumption.
Qed.
Print Assumptions from_chars_delimited_only.

(** On any text the loop ends, after at most half as many accepted calls as there
    are characters, with one result. *)
Theorem from_chars_delimited_ends :
  forall (c : cfg) (u : uc) (t : ftype) (o : options) (d : Z) (s : list Z),
  good_text c u o s ->
  exists items rest ok, reads (fun s => from_chars_float_advanced c u t s o) d s items rest ok /\
    2 * Z.of_nat (length items) <= Z.of_nat (length s) + 1 /\ (exists consumed, s = consumed ++ rest) /\
    forall items' rest' ok', reads (fun s => from_chars_float_advanced c u t s o) d s items' rest' ok' ->
      items' = items /\ rest' = rest /\ ok' = ok.
Proof.
  intros c u t o d s G. destruct (reads_total _ _ d s (float_well_behaved c u t o) G) as (is & rest & ok & R & L & P).
  exists is, rest, ok. repeat split; try assumption; destruct (reads_unique _ _ _ _ _ _ _ _ _ R H) as (<- & <- & <-); reflexivity.
Qed.
Print Assumptions from_chars_delimited_ends.

(** Numbers separated by white space, with skip_white_space: [texts] are the
    numbers with the white space in front of each. *)
Theorem from_chars_spaced :
  forall (c : cfg) (u : uc) (t : ftype) (o : options) (first : list Z) (others : list (Z * list Z)) (tail t0 : list Z)
         (items : list item),
  let texts := first :: map (fun wp => fst wp :: snd wp) others in
  good_text c u o (concat texts ++ tail) -> skips_space c o = true -> space (o_decimal_point o) = false ->
  Forall (fun wp => space (fst wp) = true) others ->
  number_ends (o_decimal_point o) tail -> special_ends tail ->
  from_chars_float_advanced c u t tail o = Ok {| r_ptr := t0; r_ec := InvalidArgument; r_value := None |} ->
  Forall2 (fun p i => from_chars_float_advanced c u t p o = Ok {| r_ptr := []; r_ec := fst i; r_value := snd i |} /\
                      fst i <> InvalidArgument) texts items ->
  reads_all (fun s => from_chars_float_advanced c u t s o) (concat texts ++ tail) items t0.
Proof.
  intros c u t o first others tail t0 is texts G SK PT W NT ST CT F.
  apply (reads_all_concat _ _ _ tail t0 texts is (float_well_behaved c u t o) (float_cut_off c u t o)); try assumption.
  - cbn [texts tl]. clear - W PT. induction W as [|[w p] l H _ IH]; cbn [map]; constructor; [|exact IH].
    intros s. cbn [fst snd app] in *. split; cbn.
    + intros [D|[->|D]]; [|congruence|]; apply space_cases in H; [apply digit_true in D; lia|]. cbn [In] in D. lia.
    + intros D. apply space_cases in H. lia.
  - split; assumption.
Qed.
Print Assumptions from_chars_spaced.

(** ** Integers *)
Lemma int_prefix_good c u o p q : good_int_text c u o (p ++ q) -> good_int_text c u o p.
Proof.
  intros (G1 & G2). split; [apply Forall_app in G1; apply G1|]. intros W K. specialize (G2 W K). apply Forall_app in G2. apply G2.
Qed.
Lemma int_suffix_good c u o p q : good_int_text c u o (p ++ q) -> good_int_text c u o q.
Proof.
  intros (G1 & G2). split; [apply Forall_app in G1; apply G1|]. intros W K. specialize (G2 W K). apply Forall_app in G2. apply G2.
Qed.

Lemma int_well_behaved c u T o : int_type T ->
  well_behaved (fun s => from_chars_int_advanced c u T s o) (good_int_text c u o).
Proof.
  intros IT. split; [intros p q; apply int_suffix_good|]. intros s G.
  destruct (int_starts c o s) as (s0 & SA).
  assert (SUF : exists w, s = w ++ s0).
  { unfold starts_at in SA. destruct (skips_space c o); [destruct SA as (w & E & _); eauto|exists []; symmetry; exact SA]. }
  destruct SUF as (w & ES).
  destruct (Z_le_gt_dec 2 (o_base o)) as [B2|B2]; [destruct (Z_le_gt_dec (o_base o) 36) as [B36|B36]|].
  2,3: eexists; exists w; split; [apply (from_chars_int_base c u T o s s0 G SA); lia|]; cbn [r_ptr r_ec]; split; [exact ES|congruence].
  assert (B : 2 <= o_base o <= 36) by lia.
  destruct (int_text_exists (i_signed T) (leading_plus (rules_of c o)) (o_base o) s0 B) as (neg & ds & r & TX).
  destruct (int_main c u T o s s0 neg ds r IT G SA B TX) as (_ & [(ED & E1)|(ND & H1)]).
  { eexists; exists w. split; [exact E1|]. cbn [r_ptr r_ec]. split; [exact ES|congruence]. }
  destruct (int_text_prefix _ _ _ _ _ _ _ TX) as (g & EG). rewrite ES, EG, !app_assoc.
  assert (NQ : (w ++ g) ++ ds <> []) by (intros Q; apply app_eq_nil in Q; tauto).
  rewrite ES, EG, !app_assoc in H1.
  destruct H1 as [(_ & H1)|[(_ & _ & H1)|(_ & _ & H1)]]; eexists; exists ((w ++ g) ++ ds); (split; [exact H1|]; split; [reflexivity|]; intros _; exact NQ).
Qed.

Lemma int_cut_off c u T o : int_type T ->
  cut_off (fun s => from_chars_int_advanced c u T s o) (good_int_text c u o) (not_at (base_digit (o_base o))).
Proof.
  intros IT p rest x v G E NX NE. pose proof (int_prefix_good _ _ _ _ _ G) as GP.
  destruct (int_starts c o p) as (s0 & SA).
  destruct (Z_le_gt_dec 2 (o_base o)) as [B2|B2]; [destruct (Z_le_gt_dec (o_base o) 36) as [B36|B36]|].
  2,3: rewrite (from_chars_int_base c u T o p s0 GP SA) in E by lia; injection E as _ <- _; congruence.
  assert (B : 2 <= o_base o <= 36) by lia.
  destruct (int_text_exists (i_signed T) (leading_plus (rules_of c o)) (o_base o) s0 B) as (neg & ds & r & TX).
  assert (RD : r = [] /\ ds <> []).
  { destruct (int_main c u T o p s0 neg ds r IT GP SA B TX) as (_ & [(ED & E1)|(ND & H1)]).
    - rewrite E1 in E. injection E as _ <- _. congruence.
    - split; [|exact ND]. destruct H1 as [(_ & H1)|[(_ & _ & H1)|(_ & _ & H1)]]; rewrite H1 in E; injection E; auto. }
  destruct RD as (-> & ND).
  destruct (from_chars_int_trailing_text c u T o p s0 neg ds rest IT G SA B TX ND NE) as (x' & v' & E1 & E2).
  rewrite E1 in E. injection E as <- <-. exact E2.
Qed.

Lemma int_alone c u T o : int_type T -> alone (fun s => from_chars_int_advanced c u T s o) (good_int_text c u o).
Proof. intros IT p rest x v G E NX. exact (from_chars_int_consumed_only c u T o p rest x v IT G E NX). Qed.

Theorem from_chars_int_delimited :
  forall (c : cfg) (u : uc) (T : ity) (o : options) (d : Z) (texts : list (list Z)) (items : list item) (tail : list Z),
  int_type T -> good_int_text c u o (join d texts ++ tail) ->
  ~ base_digit (o_base o) d -> not_at (base_digit (o_base o)) tail -> not_at (fun ch => ch = d) tail ->
  texts <> [] ->
  Forall2 (fun p i => from_chars_int_advanced c u T p o = Ok {| r_ptr := []; r_ec := fst i; r_value := snd i |} /\
                      fst i <> InvalidArgument) texts items ->
  reads (fun s => from_chars_int_advanced c u T s o) d (join d texts ++ tail) items tail true.
Proof.
  intros c u T o d ps is tail IT G ND NT TD NE F.
  exact (reads_join _ _ _ d tail ps is (int_well_behaved c u T o IT) (int_cut_off c u T o IT) (fun _ => ND) NT TD F NE G).
Qed.
Print Assumptions from_chars_int_delimited.

Theorem from_chars_int_delimited_only :
  forall (c : cfg) (u : uc) (T : ity) (o : options) (d : Z) (s : list Z) (items : list item) (rest : list Z),
  int_type T -> good_int_text c u o s ->
  reads (fun s => from_chars_int_advanced c u T s o) d s items rest true ->
  exists texts, s = join d texts ++ rest /\ texts <> [] /\ not_at (fun ch => ch = d) rest /\
    Forall2 (fun p i => from_chars_int_advanced c u T p o = Ok {| r_ptr := []; r_ec := fst i; r_value := snd i |} /\
                        fst i <> InvalidArgument) texts items.
Proof.
  intros c u T o d s is rest IT G R.
  destruct (reads_split _ _ d s is rest true (int_well_behaved c u T o IT) (int_alone c u T o IT) G R eq_refl)
    as (ps & E & F & NE & N).
  exists ps. repeat split; assumption.
Qed.
Print Assumptions from_chars_int_delimited_only.

Theorem from_chars_int_delimited_ends :
  forall (c : cfg) (u : uc) (T : ity) (o : options) (d : Z) (s : list Z),
  int_type T -> good_int_text c u o s ->
  exists items rest ok, reads (fun s => from_chars_int_advanced c u T s o) d s items rest ok /\
    2 * Z.of_nat (length items) <= Z.of_nat (length s) + 1 /\ (exists consumed, s = consumed ++ rest) /\
    forall items' rest' ok', reads (fun s => from_chars_int_advanced c u T s o) d s items' rest' ok' ->
      items' = items /\ rest' = rest /\ ok' = ok.
Proof.
  intros c u T o d s IT G. destruct (reads_total _ _ d s (int_well_behaved c u T o IT) G) as (is & rest & ok & R & L & P).
  exists is, rest, ok. repeat split; try assumption; destruct (reads_unique _ _ _ _ _ _ _ _ _ R H) as (<- & <- & <-); reflexivity.
Qed.
Print Assumptions from_chars_int_delimited_ends.

Theorem from_chars_int_spaced :
  forall (c : cfg) (u : uc) (T : ity) (o : options) (first : list Z) (others : list (Z * list Z)) (tail t0 : list Z)
         (items : list item),
  let texts := first :: map (fun wp => fst wp :: snd wp) others in
  int_type T -> good_int_text c u o (concat texts ++ tail) -> skips_space c o = true ->
  Forall (fun wp => space (fst wp) = true) others -> not_at (base_digit (o_base o)) tail ->
  from_chars_int_advanced c u T tail o = Ok {| r_ptr := t0; r_ec := InvalidArgument; r_value := None |} ->
  Forall2 (fun p i => from_chars_int_advanced c u T p o = Ok {| r_ptr := []; r_ec := fst i; r_value := snd i |} /\
                      fst i <> InvalidArgument) texts items ->
  reads_all (fun s => from_chars_int_advanced c u T s o) (concat texts ++ tail) items t0.
Proof.
  intros c u T o first others tail t0 is texts IT G SK W NT CT F.
  apply (reads_all_concat _ _ _ tail t0 texts is (int_well_behaved c u T o IT) (int_cut_off c u T o IT)); try assumption.
  cbn [texts tl]. clear - W. induction W as [|[w p] l H _ IH]; cbn [map]; constructor; [|exact IH].
  intros s. cbn [fst snd app not_at] in *. intros (k & D & _). apply space_cases in H. unfold digit_of in D.
  repeat (match type of D with (if ?b then _ else _) = _ => destruct b eqn:?; [lia|] end). discriminate D.
Qed.
Print Assumptions from_chars_int_spaced.

(** A reading loop over any text ends as well. *)
Theorem from_chars_spaced_ends :
  forall (c : cfg) (u : uc) (t : ftype) (o : options) (s : list Z),
  good_text c u o s ->
  exists items rest, reads_all (fun s => from_chars_float_advanced c u t s o) s items rest /\
    (length items <= length s)%nat /\ (exists consumed, s = consumed ++ rest) /\
    forall items' rest', reads_all (fun s => from_chars_float_advanced c u t s o) s items' rest' ->
      items' = items /\ rest' = rest.
Proof.
  intros c u t o s G. destruct (reads_all_total _ _ s (float_well_behaved c u t o) G) as (is & rest & R & L & P).
  exists is, rest. repeat split; try assumption; destruct (reads_all_unique _ _ _ _ _ _ R H) as (<- & <-); reflexivity.
Qed.
Print Assumptions from_chars_spaced_ends.

(** README: "234532.3426362,7869234.9823,324562.645", and "7e400, 1" (the second
    text starts with a space and is rejected), and "12 -3 x" with white space. *)
Example delimited_example :
  reads (fun s => from_chars_float_advanced cfg_x86_64 Char_s F64 s general) 44
    [50;51;52;53;51;50;46;51;52;50;54;51;54;50;44;55;56;54;57;50;51;52;46;57;56;50;51;44;51;50;52;53;54;50;46;54;52;53]
    [(Success, Some 4687298482769759307); (Success, Some 4710207537698177234); (Success, Some 4689319556248428872)] [] true /\
  reads (fun s => from_chars_float_advanced cfg_x86_64 Char_s F64 s general) 44
    [55;101;52;48;48;44;32;49] [(OutOfRange, Some (infinity binary64))] [32;49] false /\
  reads_all (fun s => from_chars_int_advanced cfg_x86_64 Char_s int32_type s {| o_format := 5 + 256; o_decimal_point := 46; o_base := 10 |})
    [49;50;32;45;51;32;120] [(Success, Some 12); (Success, Some (-3))] [120].
Proof.
  assert (NI : Success <> InvalidArgument /\ OutOfRange <> InvalidArgument) by (split; discriminate). destruct NI as (N1 & N2).
  split; [|split].
  - eapply (reads_next _ 44 _ (Build_result _ Success (Some _))); [vm_compute; reflexivity|exact N1|reflexivity|].
    eapply (reads_next _ 44 _ (Build_result _ Success (Some _))); [vm_compute; reflexivity|exact N1|reflexivity|].
    eapply (reads_last _ 44 _ (Build_result [] Success (Some _))); [vm_compute; reflexivity|exact N1|exact I].
  - eapply (reads_next _ 44 _ (Build_result _ OutOfRange (Some _))); [vm_compute; reflexivity|exact N2|reflexivity|].
    eapply (reads_error _ 44 _ (Build_result [32;49] InvalidArgument None)); [vm_compute; reflexivity|reflexivity].
  - eapply (reads_all_next _ _ (Build_result _ Success (Some 12))); [vm_compute; reflexivity|exact N1|].
    eapply (reads_all_next _ _ (Build_result _ Success (Some (-3)))); [vm_compute; reflexivity|exact N1|].
    eapply (reads_all_end _ _ (Build_result [120] InvalidArgument None)); [vm_compute; reflexivity|reflexivity].
Qed.
