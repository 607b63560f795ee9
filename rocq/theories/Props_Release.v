(** Property C73: version numbers grow from release to release. *)
From Coq Require Import String.
From Verif Require Import Machine SpecGrammar SpecPrint Props_Print Amalgamate Props_Amalgamate Release.
From Coq Require Import List.
Import ListNotations.
Open Scope Z_scope.

(** *** Specification *)

(** Versions compare as their parts do, the first difference decides. *)
Definition older (v w : version) : Prop :=
  v_major v < v_major w \/
  v_major v = v_major w /\ (v_minor v < v_minor w \/ v_minor v = v_minor w /\ v_patch v < v_patch w).

(** The next major, minor or patch version *)
Definition follows (v w : version) : Prop :=
  w = {| v_major := v_major v + 1; v_minor := 0; v_patch := 0 |} \/
  w = {| v_major := v_major v; v_minor := v_minor v + 1; v_patch := 0 |} \/
  w = {| v_major := v_major v; v_minor := v_minor v; v_patch := v_patch v + 1 |}.

Definition proper (v : version) : Prop := 0 <= v_major v /\ 0 <= v_minor v /\ 0 <= v_patch v.
Definition two_digits (v : version) : Prop := 0 <= v_major v /\ 0 <= v_minor v <= 99 /\ 0 <= v_patch v <= 99.

(** Some releases, the last one first, and what the files are then *)
Inductive history (space : Z -> bool) (tag0 cmake0 header0 readme0 : text) : list version -> text -> text -> text -> text -> Prop :=
| no_release : history space tag0 cmake0 header0 readme0 [] tag0 cmake0 header0 readme0
| next_release vs tag cmake header readme arg new cmake' header' readme' :
    history space tag0 cmake0 header0 readme0 vs tag cmake header readme ->
    release space tag arg cmake header readme = Some (new, cmake', header', readme') ->
    history space tag0 cmake0 header0 readme0 (new :: vs) (new_tag new) cmake' header' readme'.

Definition contains (l t : text) : Prop := exists a b, t = a ++ l ++ b.

(** A line without white space at its end *)
Fixpoint cut (space : Z -> bool) (t : text) : text :=
  match t with
  | [] => []
  | ch :: t => match cut space t with [] => if space ch then [] else [ch] | r => ch :: r end
  end.
Definition trimmed (space : Z -> bool) (line : text) : text := cut space line ++ [10].

Definition decimal (n : Z) : text := print_natural false 10 n.
Definition dotted (v : version) : text := decimal (v_major v) ++ lit "." ++ decimal (v_minor v) ++ lit "." ++ decimal (v_patch v).

(** A header whose three lines define the version; [z1], [z2], [z3] are what follows the
    numbers: a newline, or white space or a comment before it. *)
Definition defines (a b c d : list text) (z1 z2 z3 : text) (M m p : text) : list text :=
  a ++ [lit "#define FASTFLOAT_VERSION_MAJOR " ++ M ++ z1] ++ b ++ [lit "#define FASTFLOAT_VERSION_MINOR " ++ m ++ z2] ++
  c ++ [lit "#define FASTFLOAT_VERSION_PATCH " ++ p ++ z3] ++ d.

(** No line looks like one of these. *)
Definition no_version (ls : list text) : Prop :=
  Forall (fun l => ~ contains (lit "#define FASTFLOAT_VERSION_MAJOR ") l /\ ~ contains (lit "#define FASTFLOAT_VERSION_MINOR ") l /\
                   ~ contains (lit "#define FASTFLOAT_VERSION_PATCH ") l) ls.

(** CMakeLists.txt with its version *)
Definition declares (a b : list text) (z : text) (v : text) : list text :=
  a ++ [lit "project(fast_float VERSION " ++ v ++ lit " LANGUAGES CXX)" ++ z] ++ b.
Definition no_project (ls : list text) : Prop := Forall (fun l => ~ contains (lit "project(fast_float VERSION ") l) ls.

(** A line of README.md: one with a link to the single header, one with a tag for
    FetchContent, one with a tag for CPM, or another. *)
Inductive readme_line :=
| With_link (before after : text)
| With_fetch (before after : text)
| With_cpm (before after : text)
| Other_line (l : text).

Definition render (v : text) (l : readme_line) : text :=
  match l with
  | With_link a b => a ++ lit "https://github.com/fastfloat/fast_float/releases/download/v" ++ v ++ lit "/fast_float.h" ++ b
  | With_fetch a b => a ++ lit "GIT_TAG tags/v" ++ v ++ b
  | With_cpm a b => a ++ lit "GIT_TAG v" ++ v ++ lit ")" ++ b
  | Other_line l => l
  end.

(** No part of a line that looks like one of these *)
Definition no_tag (t : text) : Prop :=
  ~ contains (lit "/fastfloat/fast_float/releases/download/v") t /\ ~ contains (lit "GIT_TAG tags/v") t /\ ~ contains (lit "GIT_TAG v") t.
Definition readable (l : readme_line) : Prop :=
  match l with
  | With_link a b | With_cpm a b => no_tag a /\ no_tag b
  | With_fetch a b => no_tag a /\ no_tag b /\ not_at_digit b
  | Other_line l => no_tag l
  end.

(** White space at the end of the line removed *)
Definition trim_line (space : Z -> bool) (l : readme_line) : readme_line :=
  match l with
  | With_link a b => With_link a (trimmed space b)
  | With_fetch a b => With_fetch a (trimmed space b)
  | With_cpm a b => With_cpm a (trimmed space b)
  | Other_line l => Other_line (trimmed space l)
  end.

(** Digits *)
Definition number_text (t : text) : Prop := t <> [] /\ all_digits t.

(** *** The order of versions *)

Lemma older_trans u v w : older u v -> older v w -> older u w.
Proof. unfold older. lia. Qed.

Lemma follows_older v w : proper v -> follows v w -> older v w.
Proof. unfold proper, follows, older. intros P [-> | [-> | ->]]; cbn [v_major v_minor v_patch]; lia. Qed.

Lemma version_eq a b c a' b' c' : a = a' -> b = b' -> c = c' ->
  {| v_major := a; v_minor := b; v_patch := c |} = {| v_major := a'; v_minor := b'; v_patch := c' |}.
Proof. intros -> -> ->. reflexivity. Qed.

Lemma valid_next_follows v w : valid_next v w = true <-> follows v w.
Proof.
  destruct v as [a b c], w as [a' b' c']. unfold valid_next, follows. cbn [v_major v_minor v_patch]. split.
  - destruct (Z.eqb_spec a' a) as [->|N]; cbn [negb].
    + destruct (Z.eqb_spec b' b) as [->|N]; cbn [negb].
      * intros E. apply Z.eqb_eq in E. right. right. apply version_eq; lia.
      * intros E. right. left. apply andb_true_iff in E. destruct E as (E1 & E2). apply Z.eqb_eq in E1, E2. apply version_eq; lia.
    + intros E. left. apply andb_true_iff in E. destruct E as (E & E3). apply andb_true_iff in E. destruct E as (E1 & E2).
      apply Z.eqb_eq in E1, E2, E3. apply version_eq; lia.
  - intros [E | [E | E]]; injection E as -> -> ->.
    + destruct (Z.eqb_spec (a + 1) a); [lia|]. cbn [negb]. rewrite !Z.eqb_refl. reflexivity.
    + rewrite Z.eqb_refl. cbn [negb]. destruct (Z.eqb_spec (b + 1) b); [lia|]. cbn [negb]. rewrite !Z.eqb_refl. reflexivity.
    + rewrite !Z.eqb_refl. reflexivity.
Qed.

(** C73: among versions whose minor and patch number have at most two digits, the number
    FASTFLOAT_VERSION decides which is older, and tells the three parts. *)
Theorem version_number_order_partial :
  forall v w : version, two_digits v -> two_digits w ->
  (version_number v < version_number w <-> older v w) /\
  v_major v = version_number v / 10000 /\ v_minor v = version_number v / 100 mod 100 /\ v_patch v = version_number v mod 100.
Proof.
  intros v w (V1 & V2 & V3) (W1 & W2 & W3). unfold version_number, older. split; [lia|].
  set (a := v_major v) in *. set (b := v_minor v) in *. set (c := v_patch v) in *. clearbody a b c.
  assert (H : (a * 10000 + b * 100 + c) / 100 = a * 100 + b).
  { symmetry. apply (Z.div_unique_pos _ _ _ c); lia. }
  split; [apply (Z.div_unique_pos _ _ _ (b * 100 + c)); lia|]. split.
  - rewrite H. apply (Z.mod_unique_pos _ _ a); lia.
  - apply (Z.mod_unique_pos _ _ (a * 100 + b)); lia.
Qed.
Print Assumptions version_number_order_partial.

(** *** Reading versions *)

Lemma digit_run_app ds rest : all_digits ds -> not_at_digit rest -> digit_run (ds ++ rest) = (ds, rest).
Proof.
  intros D N. induction D as [|ch ds E D IH]; cbn [app].
  - destruct rest as [|ch rest]; [reflexivity|]. cbn in N. unfold digit in N. cbn [digit_run]. unfold is_digit.
    destruct ((48 <=? ch) && (ch <=? 57)); [destruct N; reflexivity|reflexivity].
  - cbn [digit_run]. unfold is_digit. unfold digit in E. rewrite E, IH. reflexivity.
Qed.

Lemma some_digits_app ds rest : number_text ds -> not_at_digit rest -> some_digits (ds ++ rest) = Some (ds, rest).
Proof.
  intros (NE & D) N. unfold some_digits. rewrite digit_run_app by assumption. destruct ds; [congruence|reflexivity].
Qed.

Lemma literal_app l rest : literal l (l ++ rest) = Some rest.
Proof. unfold literal. rewrite starts_app. rewrite skipn_app, skipn_all, Nat.sub_diag. reflexivity. Qed.

Lemma starts_with_spec l t : starts_with l t = true -> t = l ++ skipn (List.length l) t.
Proof.
  revert t. induction l as [|a l IH]; intros [|b t] H; try reflexivity; try discriminate H. cbn in *.
  apply andb_true_iff in H. destruct H as (E & H). apply Z.eqb_eq in E. subst b. f_equal. apply IH. exact H.
Qed.

Lemma literal_some l t rest : literal l t = Some rest -> t = l ++ rest.
Proof. unfold literal. destruct (starts_with l t) eqn:S; [|discriminate]. intros [= <-]. apply starts_with_spec. exact S. Qed.

Lemma str_number n : 0 <= n -> number_text (str n) /\ int_of (str n) = n.
Proof. intros N. destruct (natural_digits n N) as (A & B & C). split; [split; assumption|exact C]. Qed.

Lemma int_of_nonneg ds : all_digits ds -> 0 <= int_of ds.
Proof.
  unfold int_of. intros D. assert (G : forall a, 0 <= a -> 0 <= fold_left (fun a ch => 10 * a + (ch - 48)) ds a); [|apply G; lia].
  induction D as [|ch ds E D IH]; intros a A; [exact A|]. cbn [fold_left]. apply IH. unfold digit in E. lia.
Qed.

Lemma digit_run_spec t : all_digits (fst (digit_run t)).
Proof.
  induction t as [|ch t IH]; [constructor|]. cbn [digit_run]. destruct (is_digit ch) eqn:E; [|constructor].
  destruct (digit_run t) as [ds rest]. cbn [fst] in *. constructor; [exact E|exact IH].
Qed.

Lemma some_digits_spec t ds rest : some_digits t = Some (ds, rest) -> all_digits ds.
Proof.
  unfold some_digits. pose proof (digit_run_spec t) as D. destruct (digit_run t) as [[|x xs] r]; [discriminate|]. cbn [fst] in D. congruence.
Qed.

Lemma version_at_proper t v rest : version_at t = Some (v, rest) -> proper v.
Proof.
  unfold version_at. destruct (some_digits t) as [[a t1]|] eqn:A; [|discriminate]. destruct (literal [46] t1) as [t2|]; [|discriminate].
  destruct (some_digits t2) as [[b t3]|] eqn:B; [|discriminate]. destruct (literal [46] t3) as [t4|]; [|discriminate].
  destruct (some_digits t4) as [[c t5]|] eqn:C; [|discriminate]. intros [= <- _].
  split; [|split]; cbn [v_major v_minor v_patch]; apply int_of_nonneg; eapply some_digits_spec; eassumption.
Qed.

Lemma extract_proper t v : extractnumbers t = Some v -> proper v.
Proof.
  induction t as [|ch t IH]; intros H; [discriminate H|]. cbn [extractnumbers] in H.
  destruct (version_at (ch :: t)) as [[w r]|] eqn:V; [|apply IH; exact H]. injection H as <-. eapply version_at_proper; exact V.
Qed.

Lemma version_at_app v rest : proper v -> not_at_digit rest -> version_at (version_string v ++ rest) = Some (v, rest).
Proof.
  intros (P1 & P2 & P3) N. unfold version_string, version_at. rewrite <- !app_assoc.
  destruct (str_number _ P1) as (D1 & E1). destruct (str_number _ P2) as (D2 & E2). destruct (str_number _ P3) as (D3 & E3).
  rewrite some_digits_app by (exact D1 || (cbn; discriminate)). rewrite literal_app.
  rewrite some_digits_app by (exact D2 || (cbn; discriminate)). rewrite literal_app.
  rewrite some_digits_app by (exact D3 || exact N). rewrite E1, E2, E3. destruct v. reflexivity.
Qed.

Lemma extract_string v : proper v -> extractnumbers (version_string v) = Some v.
Proof.
  intros P. pose proof (version_at_app v [] P I) as H. rewrite app_nil_r in H.
  destruct (version_string v); cbn [extractnumbers]; rewrite H; reflexivity.
Qed.

Lemma extract_tag v : proper v -> extractnumbers (new_tag v) = Some v.
Proof.
  intros P. change (extractnumbers (new_tag v)) with
    (match version_at (new_tag v) with Some (v, _) => Some v | None => extractnumbers (version_string v) end).
  change (version_at (new_tag v)) with (@None (version * text)). apply extract_string. exact P.
Qed.

(** C73: after the release of [v] the script makes the release [w] exactly when [w] is
    the next major, minor or patch version. *)
Theorem release_accepts :
  forall (space : Z -> bool) (v w : version) (cmake header readme : text), proper v -> proper w ->
  (release space (lit "v" ++ dotted v) (dotted w) cmake header readme <> None <-> follows v w).
Proof.
  intros space v w cmake header readme PV PW. change (dotted w) with (version_string w). change (lit "v" ++ dotted v) with (new_tag v). unfold release, current_version. rewrite extract_string, extract_tag by assumption.
  rewrite <- valid_next_follows. destruct (valid_next v w); split; intros H; congruence || (intros E; discriminate E).
Qed.
Print Assumptions release_accepts.

(** *** The files *)

Lemma sub_none matches repl : forall fuel t, (forall a b, t = a ++ b -> matches b = None) -> sub fuel matches repl t = t.
Proof.
  induction fuel as [|fuel IH]; intros t H; [reflexivity|]. cbn [sub]. rewrite (H [] t eq_refl). destruct t as [|ch t]; [reflexivity|].
  f_equal. apply IH. intros a b E. apply (H (ch :: a) b). cbn [app]. congruence.
Qed.

Lemma re_sub_absent matches l repl t : (forall b, matches b <> None -> starts_with l b = true) -> ~ contains l t -> re_sub matches repl t = t.
Proof.
  intros M N. apply sub_none. intros a b E. destruct (matches b) eqn:MB; [|reflexivity]. exfalso. apply N.
  exists a, (skipn (List.length l) b). rewrite <- starts_with_spec; [exact E|]. apply M. congruence.
Qed.

Lemma re_sub_head matches l repl t rest : matches t = Some rest -> (forall b, matches b <> None -> starts_with l b = true) -> ~ contains l rest ->
  re_sub matches repl t = repl ++ rest.
Proof.
  intros H M N. unfold re_sub. cbn [sub]. rewrite H. f_equal. apply sub_none. intros a b E. destruct (matches b) eqn:MB; [|reflexivity]. exfalso. apply N.
  exists a, (skipn (List.length l) b). rewrite <- starts_with_spec; [exact E|]. apply M. congruence.
Qed.

Lemma numbered_starts l b : numbered l b <> None -> starts_with l b = true.
Proof. unfold numbered, literal. destruct (starts_with l b); [reflexivity|congruence]. Qed.

Lemma project_starts b : project b <> None -> starts_with project_line b = true.
Proof. unfold project, literal. destruct (starts_with project_line b); [reflexivity|congruence]. Qed.

(** A text that ends with something else than white space is not stripped. *)
Lemma rstrip_end space a ch z : space ch = false -> Forall (fun x => space x = true) z -> rstrip space (a ++ [ch] ++ z) = a ++ [ch].
Proof.
  intros S F. unfold rstrip. rewrite app_assoc, rev_app_distr, lstrip_app.
  assert (E : forall l, Forall (fun x => space x = true) l -> lstrip space l = []).
  { induction 1 as [|x l X L IH]; [reflexivity|]. cbn. rewrite X. exact IH. }
  rewrite E by (apply Forall_rev; exact F). rewrite rev_app_distr. cbn [rev app lstrip]. rewrite S. cbn [rev]. rewrite rev_involutive. reflexivity.
Qed.

Lemma rstrip_prefix space t : exists z, t = rstrip space t ++ z.
Proof.
  unfold rstrip. assert (G : forall l, exists z, l = z ++ lstrip space l).
  { induction l as [|x l (z & IH)]; [exists []; reflexivity|]. cbn. destruct (space x); [exists (x :: z); cbn; congruence|exists []; reflexivity]. }
  destruct (G (rev t)) as (z & E). exists (rev z). rewrite <- rev_app_distr, <- E. symmetry. apply rev_involutive.
Qed.

Lemma rstrip_twice space t : rstrip space (rstrip space t) = rstrip space t.
Proof.
  unfold rstrip. rewrite rev_involutive. f_equal. generalize (rev t). intros l. induction l as [|x l IH]; [reflexivity|]. cbn.
  destruct (space x) eqn:S; [exact IH|]. cbn. rewrite S. reflexivity.
Qed.

Lemma contains_rstrip l space t : ~ contains l t -> ~ contains l (rstrip space t).
Proof.
  intros N (a & b & E). apply N. destruct (rstrip_prefix space t) as (z & T). exists a, (b ++ z). rewrite T, E, <- !app_assoc. reflexivity.
Qed.

Lemma digits_end ds : number_text ds -> exists a ch, ds = a ++ [ch] /\ digit ch = true /\ all_digits a.
Proof.
  intros (NE & D). destruct (exists_last NE) as (a & ch & ->). exists a, ch. split; [reflexivity|].
  apply Forall_app in D. destruct D as (D1 & D2). inversion D2. split; assumption.
Qed.

Lemma trimmed_rstrip space t : trimmed space t = rstrip space t ++ [10].
Proof.
  unfold trimmed. f_equal. induction t as [|ch t IH]; [reflexivity|]. unfold rstrip in *. cbn [cut rev]. rewrite lstrip_app, IH.
  destruct (lstrip space (rev t)) as [|x r]; [cbn [rev lstrip]; destruct (space ch); reflexivity|].
  rewrite rev_app_distr. cbn [rev app]. destruct (rev r ++ [x]) eqn:E; [|reflexivity]. destruct (rev r); discriminate E.
Qed.

Section Files.
Variable space : Z -> bool.
Hypothesis space_newline : space 10 = true.
Hypothesis space_digit : forall ch, digit ch = true -> space ch = false.
Hypothesis space_paren : space 41 = false.

Lemma rstrip_keep a ch z : space ch = false -> rstrip space (a ++ [ch] ++ z) = a ++ [ch] ++ rstrip space z.
Proof.
  intros S. unfold rstrip. rewrite !rev_app_distr, <- app_assoc, lstrip_app. destruct (lstrip space (rev z)) as [|x r] eqn:E.
  - cbn [rev app lstrip]. rewrite S. cbn [rev]. rewrite rev_involutive. reflexivity.
  - rewrite !rev_app_distr, rev_involutive. cbn [rev app]. rewrite <- !app_assoc. reflexivity.
Qed.

Lemma rstrip_digits l ds z : number_text ds -> rstrip space (l ++ ds ++ z) = l ++ ds ++ rstrip space z.
Proof.
  intros D. destruct (digits_end ds D) as (a & ch & -> & DC & _).
  replace (l ++ (a ++ [ch]) ++ z) with ((l ++ a) ++ [ch] ++ z) by (rewrite <- !app_assoc; reflexivity).
  rewrite rstrip_keep by (auto using space_digit). rewrite <- !app_assoc. reflexivity.
Qed.

Lemma not_at_digit_rstrip z : not_at_digit z -> not_at_digit (rstrip space z).
Proof.
  destruct (rstrip_prefix space z) as (w & E). intros N. rewrite E in N. destruct (rstrip space z); [exact I|exact N].
Qed.

Lemma numbered_digits l ds z : number_text ds -> not_at_digit z -> numbered l (l ++ ds ++ z) = Some z.
Proof. intros D N. unfold numbered. rewrite literal_app, some_digits_app by assumption. reflexivity. Qed.

(** A line that starts with # and has no other for a while, is not one of another kind. *)
Lemma hash_split u w a r : Forall (fun ch => ch <> 35) u -> u ++ w = a ++ 35 :: r -> exists a', w = a' ++ 35 :: r.
Proof.
  intros F. revert a. induction F as [|x u X F IH]; intros a E; [exists a; exact E|]. destruct a as [|y a]; cbn [app] in E.
  - injection E as E _. congruence.
  - injection E as _ E. exact (IH a E).
Qed.

Lemma other_define l t w : starts_with l (t ++ w) = false -> (exists l', l = 35 :: l') -> (exists t', t = 35 :: t' /\ Forall (fun ch => ch <> 35) t') ->
  ~ contains l w -> ~ contains l (t ++ w).
Proof.
  intros S (l' & ->) (t' & -> & F) N (a & b & E). destruct a as [|x a].
  - rewrite E in S. cbn [app] in S. change (35 :: l' ++ b) with ((35 :: l') ++ b) in S. rewrite starts_app in S. discriminate S.
  - cbn [app] in E. injection E as _ E. destruct (hash_split t' w a (l' ++ b) F E) as (a' & W). apply N. exists a', b. exact W.
Qed.

Lemma digits_no_hash ds : all_digits ds -> Forall (fun ch => ch <> 35) ds.
Proof. apply Forall_impl. intros ch E. unfold digit in E. lia. Qed.

Definition kinds : list text := [major_line; minor_line; patch_line].

Lemma define_other l l' ds w : In l kinds -> In l' kinds -> l <> l' -> all_digits ds -> ~ contains l w -> ~ contains l (l' ++ ds ++ w).
Proof.
  intros I I' N D W. rewrite app_assoc. apply other_define; [| | |exact W].
  - destruct (starts_with l ((l' ++ ds) ++ w)) eqn:S; [|reflexivity]. exfalso. revert S.
    destruct I as [<-|[<-|[<-|[]]]]; destruct I' as [<-|[<-|[<-|[]]]]; try (destruct N; reflexivity); cbn; discriminate.
  - destruct I as [<-|[<-|[<-|[]]]]; eexists; reflexivity.
  - assert (K : exists k, l' = 35 :: k /\ Forall (fun ch => ch <> 35) k).
    { destruct I' as [<-|[<-|[<-|[]]]]; eexists; (split; [vm_compute; reflexivity|]); repeat constructor; discriminate. }
    destruct K as (k & -> & K). exists (k ++ ds). split; [reflexivity|]. apply Forall_app. split; [exact K|apply digits_no_hash; exact D].
Qed.

Lemma str_digits n : 0 <= n -> number_text (str n).
Proof. intros N. apply (str_number n N). Qed.

(** One of the three substitutions *)
Definition step (k repl line : text) : text := re_sub (numbered k) repl (rstrip space line).

Lemma step_other k repl t : ~ contains k (rstrip space t) -> step k repl t = rstrip space t.
Proof. intros N. exact (re_sub_absent (numbered k) k repl (rstrip space t) (numbered_starts k) N). Qed.

Lemma numbered_nil k : k <> [] -> numbered k [] = None.
Proof. destruct k as [|x k]; [congruence|reflexivity]. Qed.

Lemma step_same k repl ds z : number_text ds -> not_at_digit z -> ~ contains k z -> step k repl (k ++ ds ++ z) = repl ++ rstrip space z.
Proof.
  intros D ND NC. unfold step. rewrite (rstrip_digits k ds z D). 
  apply (re_sub_head (numbered k) k); [apply numbered_digits; [exact D|apply not_at_digit_rstrip; exact ND]|apply numbered_starts|apply contains_rstrip; exact NC].
Qed.

Lemma step_different k k' repl ds z : In k kinds -> In k' kinds -> k <> k' -> number_text ds -> ~ contains k z ->
  step k repl (k' ++ ds ++ z) = k' ++ ds ++ rstrip space z.
Proof.
  intros I I' N D NC. rewrite step_other; rewrite (rstrip_digits k' ds z D); [reflexivity|].
  apply define_other; try assumption; [apply D|]. apply contains_rstrip. exact NC.
Qed.

Lemma steps_other k1 k2 k3 r1 r2 r3 l : ~ contains k1 l -> ~ contains k2 l -> ~ contains k3 l ->
  step k3 r3 (step k2 r2 (step k1 r1 l)) = rstrip space l.
Proof.
  intros N1 N2 N3. rewrite (step_other k1 r1 l) by (apply contains_rstrip; exact N1).
  rewrite (step_other k2 r2 (rstrip space l)) by (rewrite rstrip_twice; apply contains_rstrip; exact N2). rewrite rstrip_twice.
  rewrite (step_other k3 r3 (rstrip space l)) by (rewrite rstrip_twice; apply contains_rstrip; exact N3). apply rstrip_twice.
Qed.

Definition new_line (new : version) (line : text) : text :=
  step patch_line (patch_line ++ str (v_patch new)) (step minor_line (minor_line ++ str (v_minor new))
    (step major_line (major_line ++ str (v_major new)) line)) ++ [10].

Lemma new_line_other new l : ~ contains major_line l -> ~ contains minor_line l -> ~ contains patch_line l -> new_line new l = trimmed space l.
Proof. intros N1 N2 N3. unfold new_line. rewrite trimmed_rstrip. f_equal. apply steps_other; assumption. Qed.

Lemma kinds_differ : major_line <> minor_line /\ major_line <> patch_line /\ minor_line <> patch_line.
Proof. repeat split; discriminate. Qed.

Lemma kinds_in : In major_line kinds /\ In minor_line kinds /\ In patch_line kinds.
Proof. repeat split; cbn; tauto. Qed.

Definition tail (z : text) : Prop := not_at_digit z /\ ~ contains major_line z /\ ~ contains minor_line z /\ ~ contains patch_line z.

Lemma tail_rstrip z : tail z -> tail (rstrip space z).
Proof. intros (A & B & C & D). split; [apply not_at_digit_rstrip; exact A|]. auto using contains_rstrip. Qed.

Lemma new_line_major new ds z : proper new -> number_text ds -> tail z ->
  new_line new (major_line ++ ds ++ z) = major_line ++ str (v_major new) ++ trimmed space z.
Proof.
  intros (P & _) D Z. pose proof (str_digits _ P) as D'. destruct kinds_differ as (A & B & C). destruct kinds_in as (I1 & I2 & I3).
  pose proof (tail_rstrip z Z) as Z'. destruct Z as (Z1 & Z2 & Z3 & Z4). destruct Z' as (Z1' & Z2' & Z3' & Z4'). unfold new_line.
  generalize (patch_line ++ str (v_patch new)) as r3. generalize (minor_line ++ str (v_minor new)) as r2. intros r2 r3.
  rewrite (step_same major_line _ ds z D Z1 Z2), <- app_assoc.
  rewrite (step_different minor_line major_line r2 _ _ I2 I1 (not_eq_sym A) D' Z3'), rstrip_twice.
  rewrite (step_different patch_line major_line r3 _ _ I3 I1 (not_eq_sym B) D' Z4'), rstrip_twice. rewrite !trimmed_rstrip. rewrite <- !app_assoc. reflexivity.
Qed.

Lemma new_line_minor new ds z : proper new -> number_text ds -> tail z ->
  new_line new (minor_line ++ ds ++ z) = minor_line ++ str (v_minor new) ++ trimmed space z.
Proof.
  intros (_ & P & _) D Z. pose proof (str_digits _ P) as D'. destruct kinds_differ as (A & B & C). destruct kinds_in as (I1 & I2 & I3).
  pose proof (tail_rstrip z Z) as Z'. destruct Z as (Z1 & Z2 & Z3 & Z4). destruct Z' as (Z1' & Z2' & Z3' & Z4'). unfold new_line.
  generalize (patch_line ++ str (v_patch new)) as r3. generalize (major_line ++ str (v_major new)) as r1. intros r1 r3.
  rewrite (step_different major_line minor_line r1 ds z I1 I2 A D Z2).
  rewrite (step_same minor_line _ ds _ D Z1' Z3'), rstrip_twice, <- app_assoc.
  rewrite (step_different patch_line minor_line r3 _ _ I3 I2 (not_eq_sym C) D' Z4'), rstrip_twice. rewrite !trimmed_rstrip. rewrite <- !app_assoc. reflexivity.
Qed.

Lemma new_line_patch new ds z : proper new -> number_text ds -> tail z ->
  new_line new (patch_line ++ ds ++ z) = patch_line ++ str (v_patch new) ++ trimmed space z.
Proof.
  intros (_ & _ & P) D Z. destruct kinds_differ as (A & B & C). destruct kinds_in as (I1 & I2 & I3).
  pose proof (tail_rstrip z Z) as Z'. destruct Z as (Z1 & Z2 & Z3 & Z4). destruct Z' as (Z1' & Z2' & Z3' & Z4'). unfold new_line.
  generalize (minor_line ++ str (v_minor new)) as r2. generalize (major_line ++ str (v_major new)) as r1. intros r1 r2.
  rewrite (step_different major_line patch_line r1 ds z I1 I3 B D Z2).
  rewrite (step_different minor_line patch_line r2 ds _ I2 I3 C D Z3'), rstrip_twice.
  rewrite (step_same patch_line _ ds _ D Z1' Z4'), rstrip_twice. rewrite !trimmed_rstrip. rewrite <- !app_assoc. reflexivity.
Qed.

(** Stripped lines have no newline *)
Lemma trimmed_line l : open_line l -> is_line (trimmed space l).
Proof.
  intros O. exists (rstrip space l). split; [apply trimmed_rstrip|]. destruct O as [(l' & -> & F)|F].
  - unfold rstrip. rewrite rev_app_distr. cbn [rev app lstrip]. rewrite space_newline. apply Forall_rev, Forall_lstrip, Forall_rev. exact F.
  - unfold rstrip. apply Forall_rev, Forall_lstrip, Forall_rev. exact F.
Qed.

Lemma open_suffix x z : open_line (x ++ z) -> open_line z.
Proof.
  intros [(l & E & F)|F]; [|right; apply Forall_app in F; apply F]. destruct z as [|ch z] using rev_ind; [right; constructor|]. clear IHz.
  rewrite app_assoc in E. apply app_inj_tail in E. destruct E as (E & ->). left. exists z. split; [reflexivity|].
  rewrite <- E in F. apply Forall_app in F. apply F.
Qed.

Lemma digits_line l ds z : Forall (fun ch => ch <> 10) l -> all_digits ds -> open_line z -> is_line (l ++ ds ++ trimmed space z).
Proof.
  intros L D O. destruct (trimmed_line z O) as (z' & E & F). exists (l ++ ds ++ z'). rewrite E. split; [rewrite <- !app_assoc; reflexivity|].
  apply Forall_app. split; [exact L|]. apply Forall_app. split; [|exact F].
  revert D. apply Forall_impl. intros ch X. unfold digit in X. lia.
Qed.

Lemma kind_line l : In l kinds -> Forall (fun ch => ch <> 10) l.
Proof. intros [<-|[<-|[<-|[]]]]; vm_compute; repeat constructor; discriminate. Qed.

Lemma header_step new a b c d z1 z2 z3 M m p file : proper new -> no_version (a ++ b ++ c ++ d ++ [z1; z2; z3]) ->
  number_text M -> number_text m -> number_text p -> not_at_digit z1 -> not_at_digit z2 -> not_at_digit z3 ->
  lines file = defines a b c d z1 z2 z3 M m p ->
  lines (new_header space new file) =
  defines (map (trimmed space) a) (map (trimmed space) b) (map (trimmed space) c) (map (trimmed space) d)
    (trimmed space z1) (trimmed space z2) (trimmed space z3) (str (v_major new)) (str (v_minor new)) (str (v_patch new)).
Proof.
  intros P NV D1 D2 D3 Q1 Q2 Q3 E.
  unfold no_version in NV. rewrite !Forall_app in NV. destruct NV as (NA & NB & NC & ND & NZ).
  pose proof (Forall_inv NZ) as N1. apply Forall_inv_tail in NZ. pose proof (Forall_inv NZ) as N2. apply Forall_inv_tail in NZ.
  pose proof (Forall_inv NZ) as N3. clear NZ. cbv beta in N1, N2, N3.
  assert (T1 : tail z1) by (split; assumption). assert (T2 : tail z2) by (split; assumption). assert (T3 : tail z3) by (split; assumption).
  assert (OTHER : forall ls, Forall (fun l => ~ contains major_line l /\ ~ contains minor_line l /\ ~ contains patch_line l) ls -> map (new_line new) ls = map (trimmed space) ls).
  { induction 1 as [|l ls (X & Y & V) F IH]; [reflexivity|]. cbn [map]. rewrite IH, new_line_other by assumption. reflexivity. }
  assert (R : map (new_line new) (lines file) = defines (map (trimmed space) a) (map (trimmed space) b) (map (trimmed space) c) (map (trimmed space) d)
    (trimmed space z1) (trimmed space z2) (trimmed space z3) (str (v_major new)) (str (v_minor new)) (str (v_patch new))).
  { rewrite E. unfold defines. rewrite !map_app. cbn [map]. fold major_line minor_line patch_line.
    rewrite new_line_major, new_line_minor, new_line_patch by assumption. rewrite !OTHER by assumption. reflexivity. }
  replace (new_header space new file) with (concat (map (new_line new) (lines file))) by reflexivity. rewrite R.
  apply lines_concat. pose proof (lines_open file) as OP. rewrite E in OP. unfold defines in OP. rewrite !Forall_app in OP.
  destruct OP as (OA & O1 & OB & O2 & OC & O3 & OD). destruct P as (P1 & P2 & P3). unfold defines. rewrite !Forall_app.
  apply Forall_inv in O1, O2, O3. rewrite app_assoc in O1, O2, O3. apply open_suffix in O1, O2, O3.
  assert (T : forall ls, Forall open_line ls -> Forall is_line (map (trimmed space) ls)).
  { intros ls F. apply Forall_map. revert F. apply Forall_impl. apply trimmed_line. }
  repeat split; try (apply T; assumption); (constructor; [|constructor]); apply digits_line; try (apply str_digits; assumption); try assumption;
    apply kind_line; cbn; tauto.
Qed.

(** *** CMakeLists.txt *)
Definition new_project (new : version) (line : text) : text :=
  re_sub project (project_line ++ version_string new ++ project_end) (rstrip space line) ++ [10].

Definition version_text (t : text) : Prop := exists a b c, t = a ++ [46] ++ b ++ [46] ++ c /\ number_text a /\ number_text b /\ number_text c.

Lemma string_version v : proper v -> version_text (version_string v).
Proof. intros (P1 & P2 & P3). exists (str (v_major v)), (str (v_minor v)), (str (v_patch v)). split; [reflexivity|]. auto using str_digits. Qed.

Lemma project_match t z : version_text t -> project (project_line ++ t ++ project_end ++ z) = Some z.
Proof.
  intros (a & b & c & -> & A & B & C). unfold project. rewrite literal_app. unfold version_at. rewrite <- !app_assoc.
  rewrite some_digits_app by (exact A || (cbn; discriminate)). rewrite literal_app.
  rewrite some_digits_app by (exact B || (cbn; discriminate)). rewrite literal_app.
  rewrite some_digits_app by (exact C || (cbn; discriminate)). apply literal_app.
Qed.

Lemma new_project_line new t z : version_text t -> ~ contains project_line z ->
  new_project new (project_line ++ t ++ project_end ++ z) = project_line ++ version_string new ++ project_end ++ trimmed space z.
Proof.
  intros V NC. unfold new_project.
  replace (project_line ++ t ++ project_end ++ z) with ((project_line ++ t ++ lit " LANGUAGES CXX") ++ [41] ++ z) by (rewrite <- !app_assoc; reflexivity).
  rewrite rstrip_keep by assumption.
  replace ((project_line ++ t ++ lit " LANGUAGES CXX") ++ [41] ++ rstrip space z) with (project_line ++ t ++ project_end ++ rstrip space z) by (rewrite <- !app_assoc; reflexivity).
  rewrite (re_sub_head project project_line _ _ (rstrip space z) (project_match t _ V) project_starts (contains_rstrip _ _ _ NC)).
  rewrite !trimmed_rstrip. rewrite <- !app_assoc. reflexivity.
Qed.

Lemma cmake_step new a b z t file : proper new -> no_project (a ++ b ++ [z]) -> version_text t ->
  lines file = declares a b z t ->
  lines (new_cmake space new file) = declares (map (trimmed space) a) (map (trimmed space) b) (trimmed space z) (version_string new).
Proof.
  intros P NP V E. unfold no_project in NP. rewrite !Forall_app in NP. destruct NP as (NA & NB & NZ). apply Forall_inv in NZ.
  assert (OTHER : forall ls, Forall (fun l => ~ contains project_line l) ls -> map (new_project new) ls = map (trimmed space) ls).
  { induction 1 as [|l ls X F IH]; [reflexivity|]. cbn [map]. rewrite IH. f_equal. unfold new_project. rewrite trimmed_rstrip.
    rewrite (re_sub_absent project project_line); [|exact project_starts|apply contains_rstrip; exact X]. reflexivity. }
  assert (R : map (new_project new) (lines file) = declares (map (trimmed space) a) (map (trimmed space) b) (trimmed space z) (version_string new)).
  { rewrite E. unfold declares. rewrite !map_app. cbn [map]. fold project_line project_end. rewrite new_project_line by assumption. rewrite !OTHER by assumption. reflexivity. }
  replace (new_cmake space new file) with (concat (map (new_project new) (lines file))) by reflexivity. rewrite R.
  apply lines_concat. pose proof (lines_open file) as OP. rewrite E in OP. unfold declares in OP. rewrite !Forall_app in OP.
  destruct OP as (OA & OZ & OB). unfold declares. rewrite !Forall_app. apply Forall_inv in OZ. rewrite !app_assoc in OZ. apply open_suffix in OZ.
  assert (T : forall ls, Forall open_line ls -> Forall is_line (map (trimmed space) ls)).
  { intros ls F. apply Forall_map. revert F. apply Forall_impl. apply trimmed_line. }
  repeat split; try (apply T; assumption). constructor; [|constructor]. destruct (trimmed_line z OZ) as (z' & EZ & FZ). rewrite EZ.
  exists (project_line ++ version_string new ++ project_end ++ z'). fold project_line project_end.
  split; [rewrite <- !app_assoc; reflexivity|]. apply Forall_app. split; [vm_compute; repeat constructor; discriminate|].
  apply Forall_app. split; [|apply Forall_app; split; [vm_compute; repeat constructor; discriminate|exact FZ]].
  assert (DD : forall ds, all_digits ds -> Forall (fun ch => ch <> 10) ds) by (intros ds; apply Forall_impl; intros ch X; unfold digit in X; lia).
  destruct P as (P1 & P2 & P3). unfold version_string. rewrite !Forall_app. repeat split; try (apply DD, str_digits; assumption); repeat constructor; discriminate.
Qed.

Lemma no_version_trimmed ls : no_version ls -> no_version (map (trimmed space) ls).
Proof.
  intros F. apply Forall_map. revert F. apply Forall_impl.
  assert (G : forall k l, (exists k', k = k' ++ [32]) -> ~ contains k l -> ~ contains k (trimmed space l)).
  { intros k l (k' & ->) N (a & b & E). rewrite trimmed_rstrip in E. apply (contains_rstrip _ space _ N).
    destruct b as [|x b] using rev_ind.
    - rewrite app_nil_r, app_assoc in E. apply app_inj_tail in E. destruct E as (_ & E). discriminate E.
    - clear IHb. rewrite !app_assoc in E. apply app_inj_tail in E. destruct E as (E & _). exists a, b. rewrite E, <- !app_assoc. reflexivity. }
  intros l (X & Y & V). repeat split; apply G; try assumption.
  - exists (lit "#define FASTFLOAT_VERSION_MAJOR"). reflexivity.
  - exists (lit "#define FASTFLOAT_VERSION_MINOR"). reflexivity.
  - exists (lit "#define FASTFLOAT_VERSION_PATCH"). reflexivity.
Qed.

Lemma no_project_trimmed ls : no_project ls -> no_project (map (trimmed space) ls).
Proof.
  intros F. apply Forall_map. revert F. apply Forall_impl. intros l N (a & b & E). rewrite trimmed_rstrip in E. apply (contains_rstrip _ space _ N).
  destruct b as [|x b] using rev_ind.
  - rewrite app_nil_r in E. change (lit "project(fast_float VERSION ") with (lit "project(fast_float VERSION" ++ [32]) in E. rewrite app_assoc in E.
    apply app_inj_tail in E. destruct E as (_ & E). discriminate E.
  - clear IHb. rewrite !app_assoc in E. apply app_inj_tail in E. destruct E as (E & _). exists a, b. rewrite E, <- !app_assoc. reflexivity.
Qed.

Lemma not_at_digit_trimmed z : not_at_digit z -> not_at_digit (trimmed space z).
Proof.
  intros N. apply not_at_digit_rstrip in N. rewrite !trimmed_rstrip. destruct (rstrip space z) as [|ch r]; [cbn; discriminate|exact N].
Qed.

Lemma trimmed_twice l : trimmed space (trimmed space l) = trimmed space l.
Proof.
  rewrite !trimmed_rstrip. f_equal. unfold rstrip at 1. rewrite rev_app_distr. cbn [rev app lstrip]. rewrite space_newline.
  exact (rstrip_twice space l).
Qed.
End Files.

(** *** README.md *)

(** Two texts that differ at some place *)
Fixpoint differ (x y : text) : bool :=
  match x, y with
  | a :: x, b :: y => negb (a =? b) || differ x y
  | _, _ => false
  end.

Lemma differ_starts x y r : differ x y = true -> starts_with x (y ++ r) = false.
Proof.
  revert y. induction x as [|a x IH]; intros [|b y] H; try discriminate H. cbn [app starts_with differ] in *.
  destruct (Z.eqb_spec a b) as [E|N]; [|reflexivity]. cbn in H. cbn [andb]. apply IH. exact H.
Qed.

(** [k] does not begin before [y] and end in it. *)
Definition no_straddle (k y : text) : bool := forallb (fun i => differ (skipn i k) y) (seq 1 (List.length k - 1)).

Lemma starts_split k : forall x y, starts_with k (x ++ y) = true ->
  starts_with k x = true \/ (List.length x < List.length k)%nat /\ starts_with (skipn (List.length x) k) y = true.
Proof.
  induction k as [|a k IH]; intros x y H; [left; reflexivity|]. destruct x as [|b x]; [right; split; [cbn; lia|exact H]|].
  cbn [app starts_with] in H. apply andb_true_iff in H. destruct H as (E & H). destruct (IH x y H) as [L|(L & R)].
  - left. cbn. rewrite E, L. reflexivity.
  - right. split; [cbn; lia|exact R].
Qed.

Lemma no_straddle_starts k x y r : no_straddle k y = true -> x <> [] -> starts_with k (x ++ y ++ r) = true -> starts_with k x = true.
Proof.
  intros N X H. apply starts_split in H. destruct H as [H|(L & H)]; [exact H|]. exfalso.
  unfold no_straddle in N. rewrite forallb_forall in N. rewrite differ_starts in H; [discriminate H|]. apply N. apply in_seq.
  destruct x; [congruence|]. cbn [List.length] in *. lia.
Qed.

Lemma starts_contains k t : starts_with k t = true -> contains k t.
Proof. intros S. exists [], (skipn (List.length k) t). cbn [app]. apply starts_with_spec. exact S. Qed.

Lemma contains_suffix k a t : contains k t -> contains k (a ++ t).
Proof. intros (x & y & ->). exists (a ++ x), y. rewrite <- app_assoc. reflexivity. Qed.

Lemma contains_prefix k a t : contains k a -> contains k (a ++ t).
Proof. intros (x & y & ->). exists x, (y ++ t). rewrite <- !app_assoc. reflexivity. Qed.

Lemma contains_starts k t : contains k t -> exists a b, t = a ++ b /\ starts_with k b = true.
Proof. intros (a & b & ->). exists a, (k ++ b). split; [reflexivity|apply starts_app]. Qed.

Lemma app_cases {A} (x y a b : list A) : x ++ y = a ++ b ->
  (exists c, a = x ++ c /\ y = c ++ b) \/ (exists c, c <> [] /\ x = a ++ c /\ b = c ++ y).
Proof.
  revert a. induction x as [|e x IH]; intros a E; [left; exists a; split; [reflexivity|exact E]|]. destruct a as [|f a].
  - right. exists (e :: x). split; [discriminate|]. split; [reflexivity|]. symmetry. exact E.
  - cbn [app] in E. injection E as -> E. destruct (IH a E) as [(c & -> & ->)|(c & C & -> & ->)]; [left; exists c|right; exists c]; auto.
Qed.

(** What is neither in the first part nor in the second nor across *)
Lemma contains_app_not k x y r : no_straddle k y = true -> ~ contains k x -> ~ contains k (y ++ r) -> ~ contains k (x ++ y ++ r).
Proof.
  intros N X Y C. apply contains_starts in C. destruct C as (a & b & E & S). apply app_cases in E. destruct E as [(c & -> & E)|(c & NE & -> & ->)].
  - apply Y. rewrite E. apply contains_suffix, starts_contains. exact S.
  - apply X. apply contains_suffix, starts_contains. apply (no_straddle_starts k c y r N NE S).
Qed.

(** Nor can it begin in a part without its first character. *)
Lemma contains_no_first ch k x y : Forall (fun e => e <> ch) x -> ~ contains (ch :: k) y -> ~ contains (ch :: k) (x ++ y).
Proof.
  intros F N C. induction F as [|e x E F IH]; [exact (N C)|]. apply IH. destruct C as (a & b & C). destruct a as [|f a]; cbn [app] in C.
  - injection C as C _. congruence.
  - injection C as _ C. exists a, b. exact C.
Qed.

(** Nor across digits, if it has none *)
Lemma contains_digits k ds x y : number_text ds -> Forall (fun ch => digit ch = false) k -> ~ contains k x -> ~ contains k y -> ~ contains k (x ++ ds ++ y).
Proof.
  intros (NE & D) K X Y. assert (KNE : k <> []) by (intros ->; apply X; exists [], x; reflexivity).
  assert (G : ~ contains k (ds ++ y)).
  { clear X NE. induction D as [|d ds DD D IH]; [exact Y|]. intros C. apply IH. destruct C as (a & b & C). destruct a as [|f a]; cbn [app] in C.
    - destruct k as [|e k]; [congruence|]. cbn [app] in C. injection C as C _. inversion K. congruence.
    - injection C as _ C. exists a, b. exact C. }
  destruct ds as [|d ds]; [congruence|]. clear NE. intros C. apply contains_starts in C. destruct C as (a & b & E & S).
  apply app_cases in E. destruct E as [(c & -> & E)|(c & CNE & -> & ->)].
  - apply G. rewrite E. apply contains_suffix, starts_contains. exact S.
  - apply X. apply contains_suffix, starts_contains. apply starts_split in S. destruct S as [S|(L & S)]; [exact S|]. exfalso.
    destruct (skipn (List.length c) k) as [|e k'] eqn:EK.
    + apply (f_equal (@List.length Z)) in EK. rewrite skipn_length in EK. cbn in EK. lia.
    + cbn [app starts_with] in S. apply andb_true_iff in S. destruct S as (S & _). apply Z.eqb_eq in S. subst e.
      apply Forall_inv in D. assert (IN : In d k) by (rewrite <- (firstn_skipn (List.length c) k), EK; apply in_or_app; right; left; reflexivity).
      rewrite Forall_forall in K. specialize (K d IN). congruence.
Qed.

Lemma version_contains k v x y : version_text v -> Forall (fun ch => digit ch = false) k -> (1 < List.length k)%nat ->
  ~ contains k x -> ~ contains k y -> ~ contains k (x ++ v ++ y).
Proof.
  intros (a & b & c & -> & A & B & C) K L X Y. rewrite <- !app_assoc.
  assert (P : ~ contains k [46]).
  { intros (p & q & E). apply (f_equal (@List.length Z)) in E. rewrite !app_length in E. cbn in E. lia. }
  apply contains_digits; try assumption. apply contains_digits; try assumption. apply contains_digits; assumption.
Qed.

Lemma version_at_match v z : version_text v -> not_at_digit z -> exists w, version_at (v ++ z) = Some (w, z).
Proof.
  intros (a & b & c & -> & A & B & C) N. unfold version_at. rewrite <- !app_assoc.
  rewrite some_digits_app by (exact A || (cbn; discriminate)). rewrite literal_app.
  rewrite some_digits_app by (exact B || (cbn; discriminate)). rewrite literal_app.
  rewrite some_digits_app by assumption. eexists. reflexivity.
Qed.

(** A match somewhere in the line, and nowhere else *)
Lemma sub_skip matches repl t : forall a fuel, (List.length a <= fuel)%nat ->
  (forall a1 a2, a = a1 ++ a2 -> a2 <> [] -> matches (a2 ++ t) = None) -> sub fuel matches repl (a ++ t) = a ++ sub (fuel - List.length a) matches repl t.
Proof.
  induction a as [|ch a IH]; intros fuel L H; [cbn; rewrite Nat.sub_0_r; reflexivity|]. destruct fuel as [|fuel]; [cbn in L; lia|].
  cbn [app sub]. pose proof (H [] (ch :: a) eq_refl ltac:(discriminate)) as H0. cbn [app] in H0. rewrite H0. cbn [app List.length Nat.sub]. f_equal. apply IH; [cbn in L; lia|].
  intros a1 a2 -> NE. apply (H (ch :: a1) a2); [reflexivity|exact NE].
Qed.

(** [o]: where [k] begins in a match *)
Lemma re_sub_at matches k o y repl a r rest :
  (forall b, matches b <> None -> starts_with k (skipn o b) = true) -> no_straddle k y = true ->
  forallb (fun i => differ k (skipn i y)) (seq 0 o) = true -> (o <= List.length y)%nat ->
  matches (y ++ r) = Some rest -> ~ contains k a -> ~ contains k rest -> re_sub matches repl (a ++ y ++ r) = a ++ repl ++ rest.
Proof.
  intros M N F OY E A R. unfold re_sub. rewrite sub_skip.
  - f_equal. rewrite !app_length. replace (S (List.length a + (List.length y + List.length r)) - List.length a)%nat with (S (List.length y + List.length r)) by lia.
    cbn [sub]. rewrite E. f_equal. apply sub_none. intros u w EW. destruct (matches w) eqn:MW; [|reflexivity]. exfalso. apply R. rewrite EW.
    apply contains_suffix. rewrite <- (firstn_skipn o w). apply contains_suffix, starts_contains, M. congruence.
  - rewrite app_length. lia.
  - intros a1 a2 EA NE. destruct (matches (a2 ++ y ++ r)) eqn:MA; [|reflexivity]. exfalso.
    assert (S : starts_with k (skipn o (a2 ++ y ++ r)) = true) by (apply M; congruence). clear MA.
    rewrite skipn_app in S. destruct (Nat.lt_ge_cases o (List.length a2)) as [L|L].
    + replace (o - List.length a2)%nat with O in S by lia. cbn [skipn] in S. apply no_straddle_starts in S; [|exact N|].
      * apply A. rewrite EA. apply contains_suffix. rewrite <- (firstn_skipn o a2). apply contains_suffix, starts_contains. exact S.
      * intros Q. apply (f_equal (@List.length Z)) in Q. rewrite skipn_length in Q. cbn in Q. lia.
    + rewrite skipn_all2 in S by exact L. cbn [app] in S. destruct a2 as [|e a2]; [congruence|]. cbn [List.length] in *.
      rewrite skipn_app in S. replace (o - Datatypes.S (List.length a2) - List.length y)%nat with O in S by lia. cbn [skipn] in S.
      rewrite forallb_forall in F. rewrite differ_starts in S; [discriminate S|]. apply F. apply in_seq. lia.
Qed.

Lemma re_sub_without matches k o repl t : (forall b, matches b <> None -> starts_with k (skipn o b) = true) -> ~ contains k t -> re_sub matches repl t = t.
Proof.
  intros M N. apply sub_none. intros u w EW. destruct (matches w) eqn:MW; [|reflexivity]. exfalso. apply N. rewrite EW.
  apply contains_suffix. rewrite <- (firstn_skipn o w). apply contains_suffix, starts_contains, M. congruence.
Qed.

Lemma literal_any_self l t : Forall (fun ch => ch <> 10) l -> literal_any l (l ++ t) = Some t.
Proof.
  induction 1 as [|x l X F IH]; [reflexivity|]. cbn [app literal_any]. destruct (Z.eqb_spec x 46) as [->|N]; [exact IH|]. rewrite Z.eqb_refl. exact IH.
Qed.

Lemma literal_any_starts l t : literal_any l t <> None -> Forall (fun ch => ch <> 46) l -> starts_with l t = true.
Proof.
  revert t. induction l as [|x l IH]; intros t H F; [reflexivity|]. inversion F; subst. destruct t as [|ch t]; [cbn in H; congruence|]. cbn [literal_any] in H.
  destruct (Z.eqb_spec x 46); [congruence|]. destruct (Z.eqb_spec ch x) as [->|]; [|congruence]. cbn [starts_with]. rewrite Z.eqb_refl. cbn [andb]. apply IH; assumption.
Qed.

Lemma literal_any_skip l l' t : literal_any (l ++ l') t <> None -> literal_any l' (skipn (List.length l) t) <> None.
Proof.
  revert t. induction l as [|x l IH]; intros t H; [exact H|]. destruct t as [|ch t]; [cbn in H; congruence|]. cbn [app literal_any] in H.
  cbn [List.length skipn]. apply IH. destruct (if x =? 46 then negb (ch =? 10) else ch =? x); [exact H|congruence].
Qed.

Definition link_mark : text := lit "/fastfloat/fast_float/releases/download/v".

Lemma link_starts b : link b <> None -> starts_with link_mark (skipn 18 b) = true.
Proof.
  intros H. apply literal_any_starts; [|vm_compute; repeat constructor; discriminate].
  apply (literal_any_skip (lit "https://github.com") link_mark). change (lit "https://github.com" ++ link_mark) with link_start.
  unfold link in H. destruct (literal_any link_start b); congruence.
Qed.
Lemma fetch_starts b : fetch b <> None -> starts_with fetch_start (skipn 0 b) = true.
Proof. unfold fetch, literal. cbn [skipn]. destruct (starts_with fetch_start b); [reflexivity|congruence]. Qed.
Lemma cpm_starts b : cpm b <> None -> starts_with cpm_start (skipn 0 b) = true.
Proof. unfold cpm, literal. cbn [skipn]. destruct (starts_with cpm_start b); [reflexivity|congruence]. Qed.

Lemma link_match v z : version_text v -> link (link_start ++ v ++ link_end ++ z) = Some z.
Proof.
  intros V. unfold link. rewrite literal_any_self by (vm_compute; repeat constructor; discriminate).
  destruct (version_at_match v (link_end ++ z) V) as (w & ->); [cbn; discriminate|]. apply literal_any_self. vm_compute; repeat constructor; discriminate.
Qed.
Lemma fetch_match v z : version_text v -> not_at_digit z -> fetch (fetch_start ++ v ++ z) = Some z.
Proof. intros V N. unfold fetch. rewrite literal_app. destruct (version_at_match v z V N) as (w & ->). reflexivity. Qed.
Lemma cpm_match v z : version_text v -> cpm (cpm_start ++ v ++ cpm_end ++ z) = Some z.
Proof.
  intros V. unfold cpm. rewrite literal_app. destruct (version_at_match v (cpm_end ++ z) V) as (w & ->); [cbn; discriminate|]. apply literal_app.
Qed.

Section Readme.
Variable space : Z -> bool.
Hypothesis space_newline : space 10 = true.
Hypothesis space_digit : forall ch, digit ch = true -> space ch = false.
Hypothesis space_paren : space 41 = false.
Hypothesis space_h : space 104 = false.

Definition marks (t : text) : Prop := ~ contains link_mark t /\ ~ contains fetch_start t /\ ~ contains cpm_start t.

Lemma marks_rstrip t : no_tag t -> marks (rstrip space t).
Proof. intros (A & B & C). repeat split; apply contains_rstrip; assumption. Qed.

(** The three substitutions, on a line already stripped *)
Definition new_readme_line (new : version) (line : text) : text :=
  re_sub cpm (cpm_start ++ version_string new ++ cpm_end) (rstrip space
    (re_sub fetch (fetch_start ++ version_string new) (rstrip space
      (re_sub link (link_start ++ version_string new ++ link_end) (rstrip space line))))) ++ [10].

Lemma rstrip_version l v z : version_text v -> rstrip space (l ++ v ++ z) = l ++ v ++ rstrip space z.
Proof.
  intros (a & b & c & -> & A & B & C).
  replace (l ++ (a ++ [46] ++ b ++ [46] ++ c) ++ z) with ((l ++ a ++ [46] ++ b ++ [46]) ++ c ++ z) by (rewrite <- !app_assoc; reflexivity).
  rewrite (rstrip_digits space space_digit) by exact C. rewrite <- !app_assoc. reflexivity.
Qed.

Ltac dec := vm_compute; repeat constructor; discriminate.

Lemma rstrip_link a v z : rstrip space (a ++ link_start ++ v ++ link_end ++ z) = a ++ link_start ++ v ++ link_end ++ rstrip space z.
Proof.
  replace (a ++ link_start ++ v ++ link_end ++ z) with ((a ++ link_start ++ v ++ lit "/fast_float.") ++ [104] ++ z) by (rewrite <- !app_assoc; reflexivity).
  rewrite rstrip_keep by assumption. rewrite <- !app_assoc. reflexivity.
Qed.
Lemma rstrip_cpm a v z : rstrip space (a ++ cpm_start ++ v ++ cpm_end ++ z) = a ++ cpm_start ++ v ++ cpm_end ++ rstrip space z.
Proof.
  replace (a ++ cpm_start ++ v ++ cpm_end ++ z) with ((a ++ cpm_start ++ v) ++ [41] ++ z) by (rewrite <- !app_assoc; reflexivity).
  rewrite rstrip_keep by assumption. rewrite <- !app_assoc. reflexivity.
Qed.
Lemma rstrip_fetch a v z : version_text v -> rstrip space (a ++ fetch_start ++ v ++ z) = a ++ fetch_start ++ v ++ rstrip space z.
Proof. intros V. rewrite app_assoc, rstrip_version, <- app_assoc by exact V. reflexivity. Qed.

(** Boolean search, for the fixed texts *)
Fixpoint found (k t : text) : bool := starts_with k t || match t with [] => false | _ :: t => found k t end.
Lemma found_spec k t : found k t = false -> ~ contains k t.
Proof.
  intros F C. apply contains_starts in C. destruct C as (a & b & -> & S). induction a as [|ch a IH]; cbn [app] in F.
  - destruct b; cbn [found] in F; rewrite S in F; discriminate F.
  - cbn [found] in F. apply orb_false_iff in F. apply IH. apply F.
Qed.

(** Another mark than that of the line is not in it. *)
Lemma other_mark k y v suf a z : version_text v -> Forall (fun ch => digit ch = false) k -> (1 < List.length k)%nat ->
  no_straddle k y = true -> found k y = false -> (exists ch k', k = ch :: k' /\ Forall (fun e => e <> ch) suf) ->
  ~ contains k a -> ~ contains k z -> ~ contains k (a ++ y ++ v ++ suf ++ z).
Proof.
  intros V D L N F (ch & k' & -> & NF) A Z. rewrite app_assoc. apply version_contains; try assumption.
  - rewrite <- (app_nil_r y). apply contains_app_not; [exact N|exact A|]. rewrite app_nil_r. apply found_spec. exact F.
  - apply contains_no_first; assumption.
Qed.

Lemma new_line_link new v a z : version_text v -> proper new -> no_tag a -> no_tag z ->
  new_readme_line new (a ++ link_start ++ v ++ link_end ++ z) = a ++ link_start ++ version_string new ++ link_end ++ trimmed space z.
Proof.
  intros V P (A1 & A2 & A3) Z. pose proof (string_version new P) as W. destruct (marks_rstrip z Z) as (Z1 & Z2 & Z3). unfold new_readme_line.
  rewrite rstrip_link. rewrite (re_sub_at link link_mark 18 link_start _ a _ (rstrip space z) link_starts);
    [|vm_compute; reflexivity|vm_compute; reflexivity|vm_compute; lia|apply link_match; exact V|exact A1|exact Z1].
  rewrite <- !app_assoc, rstrip_link, rstrip_twice.
  rewrite (re_sub_without fetch fetch_start 0 _ _ fetch_starts).
  2:{ apply other_mark; try assumption; [dec|vm_compute; lia|vm_compute; reflexivity|vm_compute; reflexivity|].
      exists 71, (tl fetch_start). split; [reflexivity|dec]. }
  rewrite rstrip_link, rstrip_twice. rewrite (re_sub_without cpm cpm_start 0 _ _ cpm_starts).
  2:{ apply other_mark; try assumption; [dec|vm_compute; lia|vm_compute; reflexivity|vm_compute; reflexivity|].
      exists 71, (tl cpm_start). split; [reflexivity|dec]. }
  rewrite trimmed_rstrip, <- !app_assoc. reflexivity.
Qed.

Lemma new_line_fetch new v a z : version_text v -> proper new -> no_tag a -> no_tag z -> not_at_digit z ->
  new_readme_line new (a ++ fetch_start ++ v ++ z) = a ++ fetch_start ++ version_string new ++ trimmed space z.
Proof.
  intros V P (A1 & A2 & A3) Z ND. pose proof (string_version new P) as W. destruct (marks_rstrip z Z) as (Z1 & Z2 & Z3). unfold new_readme_line.
  rewrite rstrip_fetch by exact V. rewrite (re_sub_without link link_mark 18 _ _ link_starts).
  2:{ apply (other_mark link_mark fetch_start v []); try assumption; [dec|vm_compute; lia|vm_compute; reflexivity|vm_compute; reflexivity|].
      exists 47, (tl link_mark). split; [reflexivity|constructor]. }
  rewrite rstrip_fetch, rstrip_twice by exact V.
  rewrite (re_sub_at fetch fetch_start 0 fetch_start _ a _ (rstrip space z) fetch_starts);
    [|vm_compute; reflexivity|vm_compute; reflexivity|vm_compute; lia|apply fetch_match; [exact V|]|exact A2|exact Z2].
  2:{ apply not_at_digit_rstrip. exact ND. }
  rewrite <- !app_assoc, rstrip_fetch, rstrip_twice by exact W. rewrite (re_sub_without cpm cpm_start 0 _ _ cpm_starts).
  2:{ apply (other_mark cpm_start fetch_start (version_string new) []); try assumption; [dec|vm_compute; lia|vm_compute; reflexivity|vm_compute; reflexivity|].
      exists 71, (tl cpm_start). split; [reflexivity|constructor]. }
  rewrite trimmed_rstrip, <- !app_assoc. reflexivity.
Qed.

Lemma new_line_cpm new v a z : version_text v -> proper new -> no_tag a -> no_tag z ->
  new_readme_line new (a ++ cpm_start ++ v ++ cpm_end ++ z) = a ++ cpm_start ++ version_string new ++ cpm_end ++ trimmed space z.
Proof.
  intros V P (A1 & A2 & A3) Z. pose proof (string_version new P) as W. destruct (marks_rstrip z Z) as (Z1 & Z2 & Z3). unfold new_readme_line.
  rewrite rstrip_cpm. rewrite (re_sub_without link link_mark 18 _ _ link_starts).
  2:{ apply other_mark; try assumption; [dec|vm_compute; lia|vm_compute; reflexivity|vm_compute; reflexivity|].
      exists 47, (tl link_mark). split; [reflexivity|dec]. }
  rewrite rstrip_cpm, rstrip_twice. rewrite (re_sub_without fetch fetch_start 0 _ _ fetch_starts).
  2:{ apply other_mark; try assumption; [dec|vm_compute; lia|vm_compute; reflexivity|vm_compute; reflexivity|].
      exists 71, (tl fetch_start). split; [reflexivity|dec]. }
  rewrite rstrip_cpm, rstrip_twice.
  rewrite (re_sub_at cpm cpm_start 0 cpm_start _ a _ (rstrip space z) cpm_starts);
    [|vm_compute; reflexivity|vm_compute; reflexivity|vm_compute; lia|apply cpm_match; exact V|exact A3|exact Z3].
  rewrite trimmed_rstrip, <- !app_assoc. reflexivity.
Qed.

Lemma new_line_plain new l : no_tag l -> new_readme_line new l = trimmed space l.
Proof.
  intros N. destruct (marks_rstrip l N) as (Z1 & Z2 & Z3). unfold new_readme_line.
  rewrite (re_sub_without link link_mark 18 _ _ link_starts Z1), rstrip_twice.
  rewrite (re_sub_without fetch fetch_start 0 _ _ fetch_starts Z2), rstrip_twice.
  rewrite (re_sub_without cpm cpm_start 0 _ _ cpm_starts Z3). rewrite trimmed_rstrip. reflexivity.
Qed.

Lemma new_line_render new v l : version_text v -> proper new -> readable l ->
  new_readme_line new (render v l) = render (version_string new) (trim_line space l).
Proof.
  intros V P R. destruct l as [a b|a b|a b|l]; cbn [render trim_line readable] in *.
  - apply new_line_link; try assumption; apply R.
  - apply new_line_fetch; try assumption; apply R.
  - apply new_line_cpm; try assumption; apply R.
  - apply new_line_plain. exact R.
Qed.

Lemma version_no_newline v : version_text v -> Forall (fun ch => ch <> 10) v.
Proof.
  intros (a & b & c & -> & (_ & A) & (_ & B) & (_ & C)).
  assert (DD : forall ds, all_digits ds -> Forall (fun ch => ch <> 10) ds) by (intros ds; apply Forall_impl; intros ch X; unfold digit in X; lia).
  rewrite !Forall_app. repeat split; try (apply DD; assumption); repeat constructor; discriminate.
Qed.

(** A line keeps its newline at the end when its parts change. *)
Lemma line_parts a y v w z : Forall (fun ch => ch <> 10) y -> Forall (fun ch => ch <> 10) w -> y <> [] ->
  open_line (a ++ y ++ v ++ z) -> is_line (a ++ y ++ w ++ trimmed space z).
Proof.
  intros Y W YN O. assert (OZ : open_line z) by (rewrite !app_assoc in O; apply open_suffix in O; exact O).
  assert (AN : Forall (fun ch => ch <> 10) a).
  { destruct O as [(l & E & F)|F]; [|apply Forall_app in F; apply F].
    destruct y as [|e y] using rev_ind; [congruence|]. clear IHy. assert (NE : v ++ z <> [] \/ v ++ z = []) by (destruct (v ++ z); [right|left]; congruence).
    destruct NE as [NE|NE].
    - destruct (exists_last NE) as (q & c & EQ). rewrite EQ, !app_assoc in E. apply app_inj_tail in E. destruct E as (E & _). rewrite <- E in F.
      rewrite !Forall_app in F. apply F.
    - rewrite NE, app_nil_r, app_assoc in E. apply app_inj_tail in E. destruct E as (E & _). rewrite <- E in F. apply Forall_app in F. apply F. }
  destruct (trimmed_line space space_newline z OZ) as (z' & EZ & FZ). rewrite EZ. exists (a ++ y ++ w ++ z'). split; [rewrite <- !app_assoc; reflexivity|].
  rewrite !Forall_app. auto.
Qed.

Lemma render_line v w l : version_text w -> open_line (render v l) -> is_line (render w (trim_line space l)).
Proof.
  intros W O. apply version_no_newline in W. destruct l as [a b|a b|a b|l]; cbn [render trim_line] in *.
  - rewrite (app_assoc v) in O. rewrite (app_assoc w). eapply line_parts; [dec| |discriminate|exact O]. apply Forall_app. split; [exact W|dec].
  - eapply line_parts; [dec|exact W|discriminate|exact O].
  - rewrite (app_assoc v) in O. rewrite (app_assoc w). eapply line_parts; [dec| |discriminate|exact O]. apply Forall_app. split; [exact W|dec].
  - apply trimmed_line; assumption.
Qed.

Lemma readme_step new v ls file : proper new -> version_text v -> Forall readable ls -> lines file = map (render v) ls ->
  lines (new_readme space new file) = map (render (version_string new)) (map (trim_line space) ls).
Proof.
  intros P V R E. pose proof (string_version new P) as W.
  assert (M : map (new_readme_line new) (lines file) = map (render (version_string new)) (map (trim_line space) ls)).
  { rewrite E. clear E. induction R as [|l ls RL R IH]; [reflexivity|]. cbn [map]. rewrite IH, new_line_render by assumption. reflexivity. }
  replace (new_readme space new file) with (concat (map (new_readme_line new) (lines file))) by reflexivity. rewrite M.
  apply lines_concat. pose proof (lines_open file) as OP. rewrite E in OP. clear E M R. induction ls as [|l ls IH]; [constructor|].
  cbn [map] in *. constructor; [|apply IH; exact (Forall_inv_tail OP)]. apply (render_line v); [exact W|exact (Forall_inv OP)].
Qed.

Lemma no_tag_trimmed t : no_tag t -> no_tag (trimmed space t).
Proof.
  assert (G : forall k l, (exists k' ch, k = k' ++ [ch] /\ ch <> 10) -> ~ contains k l -> ~ contains k (trimmed space l)).
  { intros k l (k' & ch & -> & NCH) N (a & b & E). rewrite trimmed_rstrip in E. apply (contains_rstrip _ space _ N).
    destruct b as [|x b] using rev_ind.
    - rewrite app_nil_r, app_assoc in E. apply app_inj_tail in E. destruct E as (_ & E). congruence.
    - clear IHb. rewrite !app_assoc in E. apply app_inj_tail in E. destruct E as (E & _). exists a, b. rewrite E, <- !app_assoc. reflexivity. }
  intros (A & B & C). repeat split; apply G; try assumption.
  - exists (lit "/fastfloat/fast_float/releases/download/"), 118. split; [reflexivity|discriminate].
  - exists (lit "GIT_TAG tags/"), 118. split; [reflexivity|discriminate].
  - exists (lit "GIT_TAG "), 118. split; [reflexivity|discriminate].
Qed.

Lemma readable_trim l : readable l -> readable (trim_line space l).
Proof.
  destruct l as [a b|a b|a b|l]; cbn [readable trim_line].
  - intros (A & B). split; [exact A|apply no_tag_trimmed; exact B].
  - intros (A & B & C). split; [exact A|]. split; [apply no_tag_trimmed; exact B|apply not_at_digit_trimmed; exact C].
  - intros (A & B). split; [exact A|apply no_tag_trimmed; exact B].
  - apply no_tag_trimmed.
Qed.

Lemma trim_line_twice l : trim_line space (trim_line space l) = trim_line space l.
Proof. destruct l; cbn [trim_line]; rewrite trimmed_twice by exact space_newline; reflexivity. Qed.
End Readme.

(** C73: the releases made with the script, from any state of the files.  Each release is
    the next major, minor or patch version of the one before, so every release is newer
    than all before it.  After each release the macros of the header and the project line
    of CMakeLists.txt have the three numbers of the release, the links and tags of README.md
    are those of the release, every other line is as it was but for white space at its end,
    and the last tag is that of the release.
    [space] is Python's str.isspace. *)
Theorem release_history :
  forall (space : Z -> bool) (tag0 cmake0 header0 readme0 : text) (vs : list version) (tag cmake header readme : text),
  space 10 = true -> (forall ch, digit ch = true -> space ch = false) -> space 41 = false -> space 104 = false ->
  history space tag0 cmake0 header0 readme0 vs tag cmake header readme ->
  (forall newer v w more, vs = newer ++ w :: v :: more -> follows v w) /\
  (forall newer w more v, vs = newer ++ w :: more -> In v more -> older v w) /\
  match vs with
  | [] => True
  | new :: _ =>
      tag = lit "v" ++ dotted new /\ proper new /\
      (forall a b c d z1 z2 z3 M m p, no_version (a ++ b ++ c ++ d ++ [z1; z2; z3]) -> number_text M -> number_text m -> number_text p ->
       not_at_digit z1 -> not_at_digit z2 -> not_at_digit z3 -> lines header0 = defines a b c d z1 z2 z3 M m p ->
       let t := map (trimmed space) in
       lines header = defines (t a) (t b) (t c) (t d) (trimmed space z1) (trimmed space z2) (trimmed space z3)
                        (decimal (v_major new)) (decimal (v_minor new)) (decimal (v_patch new))) /\
      (forall a b z n1 n2 n3, no_project (a ++ b ++ [z]) -> number_text n1 -> number_text n2 -> number_text n3 ->
       lines cmake0 = declares a b z (n1 ++ [46] ++ n2 ++ [46] ++ n3) ->
       let t := map (trimmed space) in
       lines cmake = declares (t a) (t b) (trimmed space z) (dotted new)) /\
      (forall ls n1 n2 n3, Forall readable ls -> number_text n1 -> number_text n2 -> number_text n3 ->
       lines readme0 = map (render (n1 ++ [46] ++ n2 ++ [46] ++ n3)) ls ->
       lines readme = map (render (dotted new)) (map (trim_line space) ls))
  end.
Proof.
  intros space tag0 cmake0 header0 readme0 vs tag cmake header readme SN SD SP SH H.
  assert (TT : forall ls, map (trimmed space) (map (trimmed space) ls) = map (trimmed space) ls).
  { induction ls as [|l ls IHl]; [reflexivity|]. cbn [map]. rewrite IHl, trimmed_twice by exact SN. reflexivity. }
  induction H as [|vs tag cmake header readme arg new cmake' header' readme' H IH R].
  - split; [intros newer v w more E; destruct newer; discriminate E|]. split; [intros newer w more v E; destruct newer; discriminate E|exact I].
  - unfold release in R. destruct (extractnumbers arg) as [nv|] eqn:X; [|discriminate R].
    destruct (valid_next (current_version tag) nv) eqn:V; [|discriminate R]. injection R as <- <- <- <-.
    pose proof (extract_proper _ _ X) as P. apply valid_next_follows in V. destruct IH as (I1 & I2 & I3).
    assert (F1 : match vs with [] => True | v :: _ => follows v nv /\ proper v end).
    { destruct vs as [|v vs]; [exact I|]. destruct I3 as (TG & PR & _). subst tag. change (lit "v" ++ dotted v) with (new_tag v) in V. pose proof (extract_tag v PR) as T. unfold current_version in V. rewrite T in V. split; [exact V|]. eapply extract_proper; exact T. }
    split; [|split; [|split; [|split; [|split; [|split]]]]].
    + intros newer v w more E. destruct newer as [|x newer]; cbn [app] in E; injection E as -> E.
      * rewrite E in F1. apply F1.
      * apply (I1 newer v w more E).
    + intros newer w more v E IN. destruct newer as [|x newer]; cbn [app] in E; injection E as -> E; [|apply (I2 newer w more v E IN)].
      subst more. destruct vs as [|y vs]; [destruct IN|]. destruct F1 as (F1 & PY). pose proof (follows_older _ _ PY F1) as O.
      destruct IN as [<-|IN]; [exact O|]. apply (older_trans v y w); [apply (I2 [] y vs v eq_refl IN)|exact O].
    + reflexivity.
    + exact P.
    + intros a b c d z1 z2 z3 M m p NV D1 D2 D3 Q1 Q2 Q3 E. cbv zeta. destruct vs as [|v vs].
      * inversion H; subst. apply (header_step space SN SD SP nv a b c d z1 z2 z3 M m p header P NV D1 D2 D3 Q1 Q2 Q3 E).
      * destruct I3 as (TG & PR & I3 & _). specialize (I3 a b c d z1 z2 z3 M m p NV D1 D2 D3 Q1 Q2 Q3 E). cbv zeta in I3.
        destruct PR as (R1 & R2 & R3).
        rewrite (fun H1 H2 H3 H4 H5 H6 H7 => header_step space SN SD SP nv _ _ _ _ _ _ _ _ _ _ header P H1 H2 H3 H4 H5 H6 H7 I3);
          try (apply str_digits; assumption); try (apply not_at_digit_trimmed; assumption).
        -- rewrite !TT, !trimmed_twice by exact SN. reflexivity.
        --
           replace (map (trimmed space) a ++ map (trimmed space) b ++ map (trimmed space) c ++ map (trimmed space) d ++ [trimmed space z1; trimmed space z2; trimmed space z3])
             with (map (trimmed space) (a ++ b ++ c ++ d ++ [z1; z2; z3])) by (rewrite !map_app; reflexivity).
           apply no_version_trimmed. exact NV.
    + intros a b z n1 n2 n3 NP D1 D2 D3 E. cbv zeta.
      assert (VT : version_text (n1 ++ [46] ++ n2 ++ [46] ++ n3)) by (exists n1, n2, n3; auto).
      destruct vs as [|v vs].
      * inversion H; subst. apply (cmake_step space SN SD SP nv a b z _ cmake P NP VT E).
      * destruct I3 as (TG & PR & _ & I3 & _). specialize (I3 a b z n1 n2 n3 NP D1 D2 D3 E). cbv zeta in I3.
        rewrite (cmake_step space SN SD SP nv (map (trimmed space) a) (map (trimmed space) b) (trimmed space z) (version_string v) cmake P) with (3 := I3).
        -- rewrite !TT, trimmed_twice by exact SN. reflexivity.
        -- replace (map (trimmed space) a ++ map (trimmed space) b ++ [trimmed space z]) with (map (trimmed space) (a ++ b ++ [z])) by (rewrite !map_app; reflexivity).
           apply no_project_trimmed. exact NP.
        -- apply string_version. exact PR.
    + intros ls n1 n2 n3 RD D1 D2 D3 E.
      assert (VT : version_text (n1 ++ [46] ++ n2 ++ [46] ++ n3)) by (exists n1, n2, n3; auto).
      destruct vs as [|v vs].
      * inversion H; subst. apply (readme_step space SN SD SP SH nv _ ls readme P VT RD E).
      * destruct I3 as (TG & PR & _ & _ & I3). specialize (I3 ls n1 n2 n3 RD D1 D2 D3 E).
        rewrite (readme_step space SN SD SP SH nv (version_string v) (map (trim_line space) ls) readme P (string_version v PR)) with (2 := I3).
        -- f_equal. rewrite map_map. apply map_ext. intros l. apply trim_line_twice. exact SN.
        -- apply Forall_map. revert RD. apply Forall_impl. intros l. apply readable_trim.
Qed.
Print Assumptions release_history.

Lemma release_next space tag0 cmake0 header0 readme0 vs tag cmake header readme arg new :
  extractnumbers arg = Some new -> valid_next (current_version tag) new = true ->
  history space tag0 cmake0 header0 readme0 vs tag cmake header readme ->
  history space tag0 cmake0 header0 readme0 (new :: vs) (new_tag new) (new_cmake space new cmake) (new_header space new header) (new_readme space new readme).
Proof. intros X V H. eapply next_release; [exact H|]. unfold release. rewrite X, V. reflexivity. Qed.

(** FASTFLOAT_VERSION does not grow with a third digit: the script makes 8.2.100 after
    8.2.99 and then 8.3.0, and these have the same number. *)
Theorem version_number_order_refuted :
  let v a b c := {| v_major := a; v_minor := b; v_patch := c |} in
  let space ch := (ch =? 32) || (ch =? 10) in
  (exists tag cmake header readme, history space (lit "v8.2.99") [] [] [] [v 8 3 0; v 8 2 100] tag cmake header readme) /\
  version_number (v 8 2 100) = version_number (v 8 3 0).
Proof.
  cbv zeta. split; [|reflexivity]. eexists _, _, _, _.
  eapply (release_next _ _ _ _ _ _ (new_tag {| v_major := 8; v_minor := 2; v_patch := 100 |}) _ _ _ (lit "8.3.0")); [vm_compute; reflexivity|vm_compute; reflexivity|].
  eapply (release_next _ _ _ _ _ _ (lit "v8.2.99") [] [] [] (lit "8.2.100")); [vm_compute; reflexivity|vm_compute; reflexivity|]. apply no_release.
Qed.
Print Assumptions version_number_order_refuted.

(** The hypotheses are met: two releases of a small header. *)
Example release_example :
  let space ch := (ch =? 32) || (ch =? 10) in
  let nl := [10] in
  let header := lit "#include <a>  " ++ nl ++ lit "#define FASTFLOAT_VERSION_MAJOR 8" ++ nl ++ lit "#define FASTFLOAT_VERSION_MINOR 2 // 3 " ++ nl ++
                lit "#define FASTFLOAT_VERSION_PATCH 9" ++ nl ++ lit "int x;" in
  let cmake := lit "project(fast_float VERSION 8.2.9 LANGUAGES CXX)" ++ nl in
  let readme := lit "# fast_float  " ++ nl ++ lit "  GIT_TAG tags/v8.2.9" ++ nl ++ lit "  GIT_TAG v8.2.9)" ++ nl ++
                lit "see https://github.com/fastfloat <https://github.com/fastfloat/fast_float/releases/download/v8.2.9/fast_float.h>." ++ nl in
  let readme_lines := [Other_line (lit "# fast_float  " ++ nl); With_fetch (lit "  ") nl; With_cpm (lit "  ") nl;
                                             With_link (lit "see https://github.com/fastfloat <") (lit ">." ++ nl)] in
  lines readme = map (render (lit "8.2.9")) readme_lines /\ Forall readable readme_lines /\
  no_version ([lit "#include <a>  " ++ nl] ++ [] ++ [] ++ [lit "int x;"] ++ [nl; lit " // 3 " ++ nl; nl]) /\
  lines header = defines [lit "#include <a>  " ++ nl] [] [] [lit "int x;"] nl (lit " // 3 " ++ nl) nl (lit "8") (lit "2") (lit "9") /\
  exists tag cmake' header' readme',
    history space (lit "v8.2.9") cmake header readme [{| v_major := 9; v_minor := 0; v_patch := 0 |}; {| v_major := 8; v_minor := 3; v_patch := 0 |}] tag cmake' header' readme' /\
    header' = lit "#include <a>" ++ nl ++ lit "#define FASTFLOAT_VERSION_MAJOR 9" ++ nl ++ lit "#define FASTFLOAT_VERSION_MINOR 0 // 3" ++ nl ++
              lit "#define FASTFLOAT_VERSION_PATCH 0" ++ nl ++ lit "int x;" ++ nl /\
    readme' = lit "# fast_float" ++ nl ++ lit "  GIT_TAG tags/v9.0.0" ++ nl ++ lit "  GIT_TAG v9.0.0)" ++ nl ++
              lit "see https://github.com/fastfloat <https://github.com/fastfloat/fast_float/releases/download/v9.0.0/fast_float.h>." ++ nl /\
    cmake' = lit "project(fast_float VERSION 9.0.0 LANGUAGES CXX)" ++ nl /\ tag = lit "v9.0.0".
Proof.
  cbv zeta. split; [vm_compute; reflexivity|].
  split; [repeat constructor; try (apply found_spec; vm_compute; reflexivity); cbn; discriminate|].
  split; [repeat constructor; apply found_spec; vm_compute; reflexivity|].
  split; [vm_compute; reflexivity|]. eexists _, _, _, _. split.
  - eapply (release_next _ _ _ _ _ _ (new_tag {| v_major := 8; v_minor := 3; v_patch := 0 |}) _ _ _ (lit "9.0.0")); [vm_compute; reflexivity|vm_compute; reflexivity|].
    eapply (release_next _ _ _ _ _ _ (lit "v8.2.9") _ _ _ (lit "8.3.0")); [vm_compute; reflexivity|vm_compute; reflexivity|]. apply no_release.
  - repeat split; vm_compute; reflexivity.
Qed.
