(** Property C74: the reading loops of the examples are right for every text. *)
From Verif Require Import Machine Config Chars Format FromChars SpecFloat SpecGrammar SpecApi SpecText SpecRel SpecLists
  FloatBridge FloatMaster FloatApi Props_Float Props_Special Props_Relations Props_Grammar Props_Spelling Props_Lists Props_Pow10 RandomText Amalgamate Examples.
From Coq Require Import QArith String List.
Import ListNotations.
Open Scope string_scope.
Open Scope list_scope.
Open Scope Z_scope.

(** *** Specification *)

(** The call of the examples: the default format *)
Definition read_number (c : cfg) (u : uc) (t : ftype) (s : list Z) : res result := from_chars_float c u t s f_general.

(** A text that from_chars reads as a whole, without an error *)
Definition reads_as (c : cfg) (u : uc) (t : ftype) (p : list Z) (v : Z) : Prop :=
  from_chars_float c u t p f_general = Ok {| r_ptr := []; r_ec := Success; r_value := Some v |}.

(** Texts, some of them with a comma after them *)
Definition pieces (ps : list (list Z * bool)) : list Z := concat (map (fun p : list Z * bool => fst p ++ if snd p then [44] else []) ps).

(** A text without a comma after it is not followed by one. *)
Fixpoint commas_taken (ps : list (list Z * bool)) (rest : list Z) : Prop :=
  match ps with
  | [] => True
  | (_, comma) :: ps => (comma = false -> not_at (fun ch => ch = 44) (pieces ps ++ rest)) /\ commas_taken ps rest
  end.

(** Numbers with white space in front of each *)
Definition spaced (ps : list (list Z * list Z)) : list Z := concat (map (fun p : list Z * list Z => fst p ++ snd p) ps).
Definition spaces (w : list Z) : Prop := Forall (fun ch => space ch = true) w.

(** *** The loop with commas *)

Definition stores (call : list Z -> res result) (good : list Z -> Prop) : Prop :=
  forall s r, good s -> call s = Ok r -> r_ec r <> InvalidArgument -> exists v, r_value r = Some v.

Lemma read_stores c u t o : stores (fun s => from_chars_float_advanced c u t s o) (good_text c u o).
Proof.
  intros s r G E NX. destruct (starts_exists c o s) as (s0 & SA).
  destruct (number_or_not c u o _ s0 G SA) as [(neg & ip & fp & e & q & N)|NN].
  - destruct (float_number_clamped c u t o s s0 neg ip fp e q (good_text_ok _ _ _ _ G) SA N) as (e' & b & y & _ & E' & _).
    rewrite E' in E. injection E as <-. eexists. reflexivity.
  - destruct (other_main c u t o s s0 G SA NN) as [(_ & E')|[(_ & _ & E')|(neg & k & q & AS & SP & E')]]; rewrite E' in E; injection E as <-.
    1,2: destruct NX; reflexivity. eexists. reflexivity.
Qed.

Definition step_comma (p : list Z) : list Z := match p with ch :: q => if ch =? 44 then q else p | [] => [] end.

Lemma many_loop_unfold fuel call r0 ch s :
  many_loop (S fuel) call r0 (ch :: s) =
  match call (ch :: s) with
  | UB => Undefined
  | Ok a =>
      match r_ec a with
      | Success =>
          match (match r_value a with Some v => Some v | None => r0 end) with
          | None => Undefined
          | Some v =>
              match many_loop fuel call (Some v) (step_comma (r_ptr a)) with
              | Done (l, b) => Done (v :: l, b) | Undefined => Undefined | Running => Running
              end
          end
      | _ => Done ([], true)
      end
  end.
Proof.
  cbn [many_loop]. destruct (call (ch :: s)) as [a|]; [|reflexivity]. cbn [lift andthen]. destruct (r_ec a); [|reflexivity|reflexivity].
  destruct (r_value a) as [v|]; [reflexivity|]. destruct r0; reflexivity.
Qed.

Lemma many_loop_any call good fuel : well_behaved call good -> alone call good -> stores call good -> forall s r0, good s -> (length s <= fuel)%nat ->
  exists ps vs rest complains,
    many_loop fuel call r0 s = Done (vs, complains) /\ s = pieces ps ++ rest /\ commas_taken ps rest /\
    Forall2 (fun p v => call (fst p) = Ok {| r_ptr := []; r_ec := Success; r_value := Some v |}) ps vs /\
    (complains = true <-> rest <> []) /\ (rest <> [] -> exists r, call rest = Ok r /\ r_ec r <> Success).
Proof.
  intros (WS & WD) AL ST. induction fuel as [|fuel IH]; intros [|ch s] r0 G L; try (cbn [length] in L; lia).
  1,2: exists [], [], [], false; split; [reflexivity|]; split; [reflexivity|]; split; [exact I|]; split; [constructor|]; split; [split; congruence|congruence].
  rewrite many_loop_unfold. destruct (WD _ G) as (a & p & C & E & NP). rewrite C.
  assert (BAD : r_ec a <> Success -> exists ps vs rest complains,
    Done ([], true) = Done (vs, complains) /\ ch :: s = pieces ps ++ rest /\ commas_taken ps rest /\
    Forall2 (fun p v => call (fst p) = Ok {| r_ptr := []; r_ec := Success; r_value := Some v |}) ps vs /\
    (complains = true <-> rest <> []) /\ (rest <> [] -> exists r, call rest = Ok r /\ r_ec r <> Success)).
  { intros B. exists [], [], (ch :: s), true. split; [reflexivity|]. split; [reflexivity|]. split; [exact I|]. split; [constructor|].
    split; [split; [discriminate|reflexivity]|]. intros _. exists a. split; [exact C|exact B]. }
  destruct (r_ec a) eqn:X; [|apply BAD; discriminate|apply BAD; discriminate]. clear BAD.
  assert (NX : r_ec a <> InvalidArgument) by (rewrite X; discriminate). destruct (ST _ _ G C NX) as (v & V). rewrite V.
  specialize (NP ltac:(discriminate)).
  assert (SC : exists comma, r_ptr a = (if comma : bool then [44] else []) ++ step_comma (r_ptr a) /\
    (comma = false -> not_at (fun x => x = 44) (step_comma (r_ptr a)))).
  { destruct (r_ptr a) as [|x q]; [exists false; split; [reflexivity|intros _; exact I]|]. cbn [step_comma]. destruct (Z.eqb_spec x 44) as [->|N].
    - exists true. split; [reflexivity|discriminate].
    - exists false. split; [reflexivity|intros _; exact N]. }
  destruct SC as (comma & SC & NC).
  assert (G' : good (step_comma (r_ptr a))) by (rewrite E in G; apply WS in G; rewrite SC in G; apply WS in G; exact G).
  assert (L' : (length (step_comma (r_ptr a)) <= fuel)%nat).
  { assert (LE : length (ch :: s) = (length p + length (r_ptr a))%nat) by (rewrite E, app_length; reflexivity).
    rewrite SC, app_length in LE. cbn [length] in LE, L. destruct p; [congruence|cbn [length] in LE; lia]. }
  destruct (IH _ (Some v) G' L') as (ps & vs & rest & k & M & EQ & CT & F & K & B). rewrite M.
  exists ((p, comma) :: ps), (v :: vs), rest, k. split; [reflexivity|]. split.
  { rewrite E, SC at 1. unfold pieces. cbn [map concat fst snd]. rewrite <- !app_assoc. do 2 f_equal. exact EQ. }
  split; [split; [rewrite <- EQ; exact NC|exact CT]|]. split; [|split; assumption]. constructor; [|exact F]. cbn [fst].
  apply (AL p (r_ptr a)); [rewrite <- E; exact G| |discriminate]. rewrite <- E, C. destruct a; cbn in *; subst; reflexivity.
Qed.

Lemma many_loop_join call good ends fuel : well_behaved call good -> cut_off call good ends -> (forall s, ends (44 :: s)) -> ends [] ->
  forall texts vs r0, good (join 44 texts) -> (length (join 44 texts) <= fuel)%nat ->
  Forall2 (fun p v => call p = Ok {| r_ptr := []; r_ec := Success; r_value := Some v |}) texts vs ->
  many_loop fuel call r0 (join 44 texts) = Done (vs, false).
Proof.
  intros (WS & WD) CO ED EN. induction fuel as [|fuel IH]; intros texts vs r0 G L F; (destruct F as [|p v texts vs C F]; [reflexivity|]);
    (assert (A : call (join 44 (p :: texts)) = Ok {| r_ptr := match texts with [] => [] | _ => 44 :: join 44 texts end; r_ec := Success; r_value := Some v |});
     [destruct texts as [|p2 texts]; [exact C|]; rewrite join_cons in *; apply CO; [exact G|exact C|discriminate|apply ED]|]);
    (destruct (join 44 (p :: texts)) as [|ch s] eqn:J;
     [exfalso; destruct (WD _ G) as (a & w & C' & E & NP); rewrite A in C'; injection C' as <-; cbn [r_ptr r_ec] in *; specialize (NP ltac:(discriminate));
      symmetry in E; apply app_eq_nil in E; destruct E as (E & _); congruence|]).
  - cbn [length] in L. lia.
  - rewrite many_loop_unfold, A. cbn [r_ec r_value r_ptr].
    assert (R : step_comma (match texts with [] => [] | _ => 44 :: join 44 texts end) = join 44 texts) by (destruct texts; reflexivity). rewrite R.
    rewrite (IH texts vs (Some v)); [reflexivity| | |exact F].
    + destruct texts as [|p2 texts]; [apply (WS (ch :: s)); rewrite app_nil_r; exact G|]. rewrite <- J, join_cons in G. apply WS in G. apply (WS [44]) in G. exact G.
    + destruct (WD _ G) as (a & w & C' & E & NP). rewrite A in C'. injection C' as <-. cbn [r_ptr r_ec] in *. specialize (NP ltac:(discriminate)).
      assert (LE : length (ch :: s) = (length w + length (match texts with [] => [] | _ => 44%Z :: join 44%Z texts end))%nat) by (rewrite E, app_length; reflexivity).
      cbn [length] in LE, L. destruct w; [congruence|]. destruct texts; cbn [length join] in *; lia.
Qed.

Lemma general_default : {| o_format := f_general; o_decimal_point := 46; o_base := 10 |} = general.
Proof. reflexivity. Qed.

Lemma plain_general c : plain_point (rules_of c general).
Proof. split; [reflexivity|]. cbn. intuition discriminate. Qed.

(** C74: a list of numbers with commas between them, each of which from_chars reads: the
    loop prints exactly their values, in order, and does not complain. *)
Theorem comma_loop_reads_lists :
  forall (c : cfg) (u : uc) (t : ftype) (texts : list (list Z)) (vs : list Z),
  good_text c u general (join 44 texts) -> Forall2 (reads_as c u t) texts vs ->
  many_loop (length (join 44 texts)) (read_number c u t) None (join 44 texts) = Done (vs, false).
Proof.
  intros c u t texts vs G F. apply (many_loop_join (read_number c u t) (good_text c u general)
    (fun s => number_ends 46 s /\ special_ends s)); try assumption.
  - exact (float_well_behaved c u t general).
  - exact (float_cut_off c u t general).
  - intros s. split; cbn; intuition discriminate.
  - split; exact I.
  - lia.
Qed.
Print Assumptions comma_loop_reads_lists.

(** C74: on any text the loop ends; the text consists of numbers, some with a comma after
    them, whose values are printed, and of a rest; the loop complains exactly if there is a
    rest, and the rest does not start with a number in range. *)
Theorem comma_loop_any_text :
  forall (c : cfg) (u : uc) (t : ftype) (s : list Z), good_text c u general s ->
  exists ps vs rest complains,
    many_loop (length s) (read_number c u t) None s = Done (vs, complains) /\
    s = pieces ps ++ rest /\ commas_taken ps rest /\
    Forall2 (fun p v => reads_as c u t (fst p) v) ps vs /\
    (complains = true <-> rest <> []) /\
    (rest <> [] -> exists r, from_chars_float c u t rest f_general = Ok r /\ r_ec r <> Success).
Proof.
  intros c u t s G. apply (many_loop_any (read_number c u t) (good_text c u general)); try assumption.
  - exact (float_well_behaved c u t general).
  - exact (float_alone c u t general (plain_general c)).
  - exact (read_stores c u t general).
  - lia.
Qed.
Print Assumptions comma_loop_any_text.

(** *** The loop with white space *)

Definition meets (call : list Z -> res result) (t : ftype) (p : list Z) (a : (ec -> bool) * Z) : Prop :=
  exists x v, call p = Ok {| r_ptr := []; r_ec := x; r_value := Some v |} /\ x <> InvalidArgument /\ fst a x = true /\ fp_equal t v (snd a) = true.

Lemma isspace_spec ch : 0 <= ch -> isspace ch = Done (space ch).
Proof. intros N. unfold isspace, space. destruct (Z.eqb_spec ch (-1)); [lia|]. destruct (Z.ltb_spec ch 0); [lia|reflexivity]. Qed.

Lemma skip_spec s : Forall (fun ch => 0 <= ch) s ->
  exists w s', skip_spaces s = Done s' /\ s = w ++ s' /\ spaces w /\ not_at (fun ch => space ch = true) s'.
Proof.
  induction 1 as [|ch s N F IH]; [exists [], []; repeat split; constructor|]. cbn [skip_spaces]. rewrite isspace_spec by exact N. cbn [andthen].
  destruct (space ch) eqn:S.
  - destruct IH as (w & s' & E & -> & W & NA). exists (ch :: w), s'. rewrite E. repeat split; try assumption. constructor; assumption.
  - exists [], (ch :: s). repeat split; [constructor|]. cbn. congruence.
Qed.

Lemma skip_app w p : Forall (fun ch => 0 <= ch) (w ++ p) -> spaces w -> not_at (fun ch => space ch = true) p -> skip_spaces (w ++ p) = Done p.
Proof.
  intros N W NA. revert N. induction W as [|ch w S W IH]; intros N; cbn [app] in *.
  - destruct p as [|ch p]; [reflexivity|]. cbn [skip_spaces]. inversion N; subst. rewrite isspace_spec by assumption. cbn [andthen].
    cbn in NA. destruct (space ch); [destruct NA; reflexivity|reflexivity].
  - inversion N; subst. cbn [skip_spaces]. rewrite isspace_spec by assumption. cbn [andthen]. rewrite S. apply IH. assumption.
Qed.

Lemma space_ends ch s : space ch = true -> number_ends 46 (ch :: s) /\ special_ends (ch :: s).
Proof. unfold space, number_ends, special_ends, digit. cbn [not_at]. intros S. split; cbn [In]; intros H; lia. Qed.

Lemma test_complete call good ends t : well_behaved call good -> cut_off call good ends -> ends [] ->
  (forall ch s, space ch = true -> ends (ch :: s)) ->
  forall ps answers, good (spaced ps) -> Forall (fun ch => 0 <= ch) (spaced ps) ->
  Forall (fun p => spaces (fst p) /\ not_at (fun ch => space ch = true) (snd p)) ps -> Forall (fun p => fst p <> []) (tl ps) ->
  Forall2 (fun p a => meets call t (snd p) a) ps answers -> test_numbers t call (spaced ps) answers = Done true.
Proof.
  intros (WS & WD) CO EN ES ps answers G N SP NE F. induction F as [|[w p] [expected answer] ps answers (x & v & C & NX & EX & EQ) F IH]; [reflexivity|].
  cbn [fst snd] in *. inversion SP as [|? ? (SW & NA) SP']; subst. cbn [fst snd] in *. cbn [tl] in NE.
  unfold spaced in G, N. cbn [map concat fst snd] in G, N. rewrite <- app_assoc in G, N. fold (spaced ps) in G, N.
  assert (G1 : good (p ++ spaced ps)) by (apply WS in G; exact G).
  assert (END : ends (spaced ps)).
  { destruct ps as [|[w2 p2] ps]; [exact EN|]. inversion NE as [|? ? N2]; subst. inversion SP' as [|? ? (S2 & _)]; subst. cbn [fst] in *.
    destruct S2 as [|ch w2 S2 _]; [congruence|]. apply ES. exact S2. }
  pose proof (CO _ _ _ _ G1 C NX END) as C1.
  assert (NA' : not_at (fun ch => space ch = true) (p ++ spaced ps)).
  { destruct p as [|ch p]; [|exact NA]. destruct (WD _ G1) as (a & q & C' & E & NP). rewrite C1 in C'. injection C' as <-.
    cbn [r_ptr r_ec app] in *. destruct (NP NX). apply (app_inv_tail (spaced ps)). symmetry. exact E. }
  unfold spaced at 1. cbn [map concat fst snd]. rewrite <- app_assoc. fold (spaced ps). cbn [test_numbers].
  rewrite skip_app by assumption. cbn [andthen]. rewrite C1. cbn [lift andthen r_ec r_value r_ptr]. rewrite EX, EQ. cbn [negb].
  apply IH; [|apply Forall_app in N; destruct N as (_ & N); apply Forall_app in N; apply N|exact SP'|destruct NE; [constructor|assumption]].
  apply WS in G1. exact G1.
Qed.

Lemma test_sound call good t : well_behaved call good -> alone call good -> stores call good ->
  forall answers s, good s -> Forall (fun ch => 0 <= ch) s -> Forall (fun a : (ec -> bool) * Z => fst a InvalidArgument = false) answers ->
  exists b, test_numbers t call s answers = Done b /\
    (b = true -> exists ps, s = spaced ps /\ Forall (fun p => spaces (fst p) /\ not_at (fun ch => space ch = true) (snd p)) ps /\
      Forall2 (fun p a => meets call t (snd p) a) ps answers).
Proof.
  intros (WS & WD) AL ST. induction answers as [|[expected answer] answers IH]; intros s G N NV.
  - exists (match s with [] => true | _ => false end). split; [reflexivity|]. intros E. exists []. destruct s; [|discriminate E]. repeat split; constructor.
  - inversion NV as [|? ? V NV']; subst. cbn [fst] in V. cbn [test_numbers]. destruct (skip_spec s N) as (w & s' & -> & -> & W & NA). cbn [andthen].
    assert (G1 : good s') by (apply WS in G; exact G). apply Forall_app in N. destruct N as (_ & N).
    destruct (WD _ G1) as (r & p & C & E & NP). rewrite C. cbn [lift andthen]. destruct (expected (r_ec r)) eqn:X; cbn [negb]; [|exists false; split; [reflexivity|discriminate]].
    assert (NX : r_ec r <> InvalidArgument) by (intros Q; rewrite Q in X; congruence). destruct (ST _ _ G1 C NX) as (v & EV). rewrite EV.
    destruct (fp_equal t v answer) eqn:Q; cbn [negb]; [|exists false; split; [reflexivity|discriminate]].
    assert (G2 : good (r_ptr r)) by (rewrite E in G1; apply WS in G1; exact G1).
    assert (N2 : Forall (fun ch => 0 <= ch) (r_ptr r)) by (rewrite E in N; apply Forall_app in N; apply N).
    destruct (IH (r_ptr r) G2 N2 NV') as (b & B & D). exists b. split; [exact B|]. intros T. destruct (D T) as (ps & EP & SP & F).
    exists ((w, p) :: ps). split; [unfold spaced; cbn [map concat fst snd]; rewrite <- app_assoc; fold (spaced ps); rewrite <- EP; f_equal; exact E|].
    specialize (NP NX). split.
    + constructor; [|exact SP]. split; [exact W|]. cbn [snd]. rewrite E in NA. destruct p; [congruence|exact NA].
    + constructor; [|exact F]. cbn [snd]. exists (r_ec r), v. split; [|split; [exact NX|split; [exact X|exact Q]]].
      apply (AL p (r_ptr r)); [rewrite <- E; exact G1| |exact NX]. rewrite <- E, C. destruct r; cbn in *; subst; reflexivity.
Qed.

(** C74: numbers with white space between them, each of which from_chars reads with an
    expected code and a value equal to the answer: the loop of the tests succeeds. *)
Theorem space_loop_reads_lists :
  forall (c : cfg) (u : uc) (t : ftype) (ps : list (list Z * list Z)) (answers : list ((ec -> bool) * Z)),
  good_text c u general (spaced ps) -> Forall (fun ch => 0 <= ch) (spaced ps) ->
  Forall (fun p => spaces (fst p) /\ not_at (fun ch => space ch = true) (snd p)) ps -> Forall (fun p => fst p <> []) (tl ps) ->
  Forall2 (fun p a => exists x v,
    from_chars_float c u t (snd p) f_general = Ok {| r_ptr := []; r_ec := x; r_value := Some v |} /\
    x <> InvalidArgument /\ fst a x = true /\ fp_equal t v (snd a) = true) ps answers ->
  test_numbers t (read_number c u t) (spaced ps) answers = Done true.
Proof.
  intros c u t ps answers G N SP NE F. apply (test_complete (read_number c u t) (good_text c u general) (fun s => number_ends 46 s /\ special_ends s)); try assumption.
  - exact (float_well_behaved c u t general).
  - exact (float_cut_off c u t general).
  - split; exact I.
  - exact space_ends.
Qed.
Print Assumptions space_loop_reads_lists.

(** C74: and on any text without negative characters the loop ends, and succeeds only on
    such lists: the answers are the numbers of the text, all of them, and nothing follows. *)
Theorem space_loop_any_text :
  forall (c : cfg) (u : uc) (t : ftype) (s : list Z) (answers : list ((ec -> bool) * Z)),
  good_text c u general s -> Forall (fun ch => 0 <= ch) s -> Forall (fun a => fst a InvalidArgument = false) answers ->
  exists b, test_numbers t (read_number c u t) s answers = Done b /\
    (b = true -> exists ps, s = spaced ps /\ Forall (fun p => spaces (fst p) /\ not_at (fun ch => space ch = true) (snd p)) ps /\
      Forall2 (fun p a => exists x v,
        from_chars_float c u t (snd p) f_general = Ok {| r_ptr := []; r_ec := x; r_value := Some v |} /\
        x <> InvalidArgument /\ fst a x = true /\ fp_equal t v (snd a) = true) ps answers).
Proof.
  intros c u t s answers G N NV. apply (test_sound (read_number c u t) (good_text c u general)); try assumption.
  - exact (float_well_behaved c u t general).
  - exact (float_alone c u t general (plain_general c)).
  - exact (read_stores c u t general).
Qed.
Print Assumptions space_loop_any_text.

(** C74: the checks of the two programs: the expected code and no other (the texts of the
    tests expect no InvalidArgument), or any code but InvalidArgument. *)
Lemma checks_reject_errors :
  (forall x y, exactly x y = true <-> x = y) /\ (forall x, parsed x = true <-> x <> InvalidArgument).
Proof. split; [intros [] []|intros []]; cbn; split; congruence. Qed.

(** *** The compile-time example *)

(** C74: parse gives the nearest double (or float) to the number at the start of the text,
    rounded to even, if it is in range, whatever follows it; the infinity or NaN that is
    spelled there; and the constant -1.0 if the number is out of range or there is none. *)
Theorem parse_example :
  forall (c : cfg) (u : uc) (t : ftype) (s s0 : list Z) (minus_one : Z),
  t <> F16 -> good_text c u general s -> starts_at c general s s0 ->
  (forall neg ip fp e rest,
     number (rules_of c general) s0 neg ip fp e rest -> exponent_bounded s e ->
     exists b, nearest_even (format_of t) (number_value ip fp e) b /\
       (((0 < number_value ip fp e)%Q /\ b = 0) \/ b = infinity (format_of t) ->
        parse (read_number c u t) minus_one s = Done minus_one) /\
       (~ (((0 < number_value ip fp e)%Q /\ b = 0) \/ b = infinity (format_of t)) ->
        parse (read_number c u t) minus_one s = Done (with_sign (format_of t) neg b))) /\
  (forall neg k rest, special (leading_plus (rules_of c general)) s0 neg k rest ->
     exists b, parse (read_number c u t) minus_one s = Done (with_sign (format_of t) neg b) /\ is_special (format_of t) k b) /\
  ((forall neg ip fp e rest, ~ number (rules_of c general) s0 neg ip fp e rest) ->
   (forall neg k rest, ~ special (leading_plus (rules_of c general)) s0 neg k rest) ->
   parse (read_number c u t) minus_one s = Done minus_one).
Proof.
  intros c u t s s0 m1 NF G SA. unfold parse, read_number, from_chars_float. rewrite general_default. split; [|split].
  - intros neg ip fp e rest NU EB. destruct (from_chars_range_error c u t general s s0 neg ip fp e rest NF G SA NU EB) as (b & x & E & NE & R & S).
    exists b. split; [exact NE|]. rewrite E. cbn [lift andthen r_ec r_value]. split.
    + intros H. apply R in H. subst x. reflexivity.
    + intros H. destruct x; [reflexivity|exfalso|exfalso; apply H, R; reflexivity].
      assert (Q : InvalidArgument = Success) by (apply S; discriminate). discriminate Q.
  - intros neg k rest SP. destruct (from_chars_special c u t general s s0 rest neg k G SA eq_refl SP) as (b & E & IS).
    exists b. rewrite E. split; [reflexivity|exact IS].
  - intros NN NS. destruct (other_main c u t general s s0 G SA NN) as [(_ & E)|[(_ & _ & E)|(neg & k & q & _ & SP & _)]].
    1,2: rewrite E; reflexivity. destruct (NS _ _ _ SP).
Qed.
Print Assumptions parse_example.

(** *** The texts of the programs *)

Example many_loop_text :   (* example_test.cpp:44 *)
  many_loop 100 (read_number cfg_x86_64 Char_s F64) None (lit "234532.3426362,7869234.9823,324562.645") =
  Done ([0x410ca122bdb80c4b; 0x415e04ccbede00d2; 0x4113cf4a947ae148], false).
Proof. vm_compute. reflexivity. Qed.
Example many_loop_complains :
  many_loop 100 (read_number cfg_x86_64 Char_s F64) None (lit "1,,2") = Done ([0x3ff0000000000000], true).
Proof. vm_compute. reflexivity. Qed.

Example string_test_text :   (* string_test.cpp:78-97 *)
  test_numbers F64 (read_number cfg_x86_64 Char_s F64) (lit "0.1 1e1000 100000 3.14159265359  -1e-500 001    1e01  1e0000001  -inf")
    [(exactly Success, 0x3fb999999999999a); (exactly OutOfRange, 0x7ff0000000000000); (exactly Success, 0x40f86a0000000000);
     (exactly Success, 0x400921fb54442eea); (exactly OutOfRange, 0x8000000000000000); (exactly Success, 0x3ff0000000000000);
     (exactly Success, 0x4024000000000000); (exactly Success, 0x4024000000000000); (exactly Success, 0xfff0000000000000)] = Done true.
Proof. vm_compute. reflexivity. Qed.
Example string_test_detects :
  test_numbers F64 (read_number cfg_x86_64 Char_s F64) (lit "0.1 1 x") [(exactly Success, 0x3fb999999999999a); (exactly Success, 0x3ff0000000000000)] = Done false.
Proof. vm_compute. reflexivity. Qed.

Example long_test_text :   (* long_test.cpp:17-21 *)
  test_numbers F32 (read_number cfg_x86_64 Char_s F32)
    (lit "0.156250000000000000000000000000000000000000  3.14159265358979323846264338327950288419716939937510 2.71828182845904523536028747135266249775724709369995")
    [(parsed, 0x3e200000); (parsed, 0x40490fdb); (parsed, 0x402df854)] = Done true.
Proof. vm_compute. reflexivity. Qed.

Example constexptest :   (* example_test.cpp:78 *)
  parse (read_number cfg_x86_64 Char_s F64) 0xbff0000000000000 (lit "3.1415 input") = Done 0x400921cac083126f.
Proof. vm_compute. reflexivity. Qed.
