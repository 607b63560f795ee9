(** Property C72: the single header is the same program as the headers. *)
From Coq Require Import ZArith Bool Ascii String.
From Coq Require Import List Lia Permutation.
From Verif Require Import Amalgamate.
Import ListNotations.
Open Scope Z_scope.

(** *** What the preprocessor makes of the headers *)

Definition name_of (h : header) : text :=
  lit (match h with
       | Constexpr_feature_detect => "constexpr_feature_detect.h" | Float_common => "float_common.h" | Fast_float => "fast_float.h"
       | Ascii_number => "ascii_number.h" | Fast_table => "fast_table.h" | Decimal_to_binary => "decimal_to_binary.h"
       | Bigint => "bigint.h" | Digit_comparison => "digit_comparison.h" | Parse_number => "parse_number.h"
       end).

Definition all_headers : list header :=
  [Constexpr_feature_detect; Float_common; Fast_float; Ascii_number; Fast_table; Decimal_to_binary; Bigint; Digit_comparison; Parse_number].

Lemma header_dec (x y : header) : {x = y} + {x <> y}.
Proof. decide equality. Defined.

(** [#include "name"] *)
Definition include_line (h : header) : text := lit "#include """ ++ name_of h ++ lit """" ++ [10].
Definition included (line : text) : option header :=
  find (fun h => starts_with (lit "#include """ ++ name_of h ++ lit """") line) all_headers.

(** The lines that remain of [#include] [h]: a header whose guard is defined already
    ([seen]) leaves nothing; an included header is put in the place of the line. *)
Fixpoint scan (include : list header -> header -> list text * list header) (ls : list text) (seen : list header) : list text * list header :=
  match ls with
  | [] => ([], seen)
  | l :: ls =>
      match included l with
      | Some h => let '(a, seen) := include seen h in let '(b, seen) := scan include ls seen in (a ++ b, seen)
      | None => let '(b, seen) := scan include ls seen in (l :: b, seen)
      end
  end.

Fixpoint preprocess (depth : nat) (code : header -> text) (seen : list header) (h : header) : list text * list header :=
  match depth with
  | O => ([], seen)
  | S depth => if in_dec header_dec h seen then ([], seen) else scan (preprocess depth code) (lines (code h)) (h :: seen)
  end.

(** *** The headers *)

(** The lines of a header: some lines, its local includes, the rest. *)
Definition consists (file : text) (head : list text) (includes : list header) (body : list text) : Prop :=
  lines file = head ++ map include_line includes ++ body /\
  Forall (fun line => local_include line = false) (head ++ body).

(** The headers of the library, with any text around their includes. *)
Definition headers (code : header -> text) (head body : header -> list text) (tail : list text) : Prop :=
  consists (code Constexpr_feature_detect) (head Constexpr_feature_detect) [] (body Constexpr_feature_detect) /\
  consists (code Float_common) (head Float_common) [Constexpr_feature_detect] (body Float_common) /\
  consists (code Ascii_number) (head Ascii_number) [Float_common] (body Ascii_number) /\
  consists (code Fast_table) (head Fast_table) [] (body Fast_table) /\
  consists (code Decimal_to_binary) (head Decimal_to_binary) [Float_common; Fast_table] (body Decimal_to_binary) /\
  consists (code Bigint) (head Bigint) [Float_common] (body Bigint) /\
  consists (code Digit_comparison) (head Digit_comparison) [Float_common; Bigint; Ascii_number] (body Digit_comparison) /\
  consists (code Parse_number) (head Parse_number) [Ascii_number; Decimal_to_binary; Digit_comparison; Float_common] (body Parse_number) /\
  (lines (code Fast_float) = head Fast_float ++ [include_line Float_common] ++ body Fast_float ++ [include_line Parse_number] ++ tail /\
   Forall (fun line => local_include line = false) (head Fast_float ++ body Fast_float ++ tail)).

Lemma starts_app p t : starts_with p (p ++ t) = true.
Proof. induction p as [|a p IH]; [reflexivity|]. cbn. rewrite Z.eqb_refl. exact IH. Qed.

Lemma starts_prefix p q t : starts_with (p ++ q) t = true -> starts_with p t = true.
Proof.
  revert t. induction p as [|a p IH]; intros t H; [reflexivity|]. destruct t as [|b t]; [discriminate H|]. cbn in *.
  apply andb_true_iff in H. destruct H as (-> & H). apply IH. exact H.
Qed.

Lemma included_none line : local_include line = false -> included line = None.
Proof.
  intros L. unfold included. destruct (find _ all_headers) as [h|] eqn:F; [|reflexivity].
  apply find_some in F. destruct F as (_ & F). apply starts_prefix in F. unfold local_include in L. congruence.
Qed.

Lemma included_line h : included (include_line h) = Some h.
Proof. destruct h; vm_compute; reflexivity. Qed.

Lemma include_local h : local_include (include_line h) = true.
Proof. destruct h; vm_compute; reflexivity. Qed.

Lemma scan_plain inc ls ls' seen : Forall (fun line => local_include line = false) ls ->
  scan inc (ls ++ ls') seen = let '(b, s) := scan inc ls' seen in (ls ++ b, s).
Proof.
  intros F. induction F as [|l ls L F IH]; cbn [app scan]; [destruct (scan inc ls' seen); reflexivity|].
  rewrite (included_none l L), IH. destruct (scan inc ls' seen). reflexivity.
Qed.

Lemma scan_include inc h ls seen :
  scan inc (include_line h :: ls) seen = let '(a, s) := inc seen h in let '(b, s) := scan inc ls s in (a ++ b, s).
Proof. cbn [scan]. rewrite included_line. reflexivity. Qed.

Lemma scan_all inc ls seen : Forall (fun line => local_include line = false) ls -> scan inc ls seen = (ls, seen).
Proof. intros F. rewrite <- (app_nil_r ls) at 1. rewrite scan_plain by exact F. cbn [scan]. rewrite app_nil_r. reflexivity. Qed.

Lemma filter_plain ls : Forall (fun line => local_include line = false) ls -> filter (fun line => negb (local_include line)) ls = ls.
Proof. induction 1 as [|l ls L F IH]; [reflexivity|]. cbn [filter]. rewrite L, IH. reflexivity. Qed.

Lemma filter_none (keep : text -> bool) ls : Forall (fun line => keep line = false) ls -> filter keep ls = [].
Proof. induction 1 as [|l ls L F IH]; [reflexivity|]. cbn [filter]. rewrite L. exact IH. Qed.

Section Headers.
Variables (code : header -> text) (head body : header -> list text) (tail : list text).
Hypothesis HS : headers code head body tail.

Lemma plain_parts h : Forall (fun line => local_include line = false) (head h) /\ Forall (fun line => local_include line = false) (body h).
Proof.
  destruct HS as (H1 & H2 & H3 & H4 & H5 & H6 & H7 & H8 & (_ & H9)).
  destruct h; match goal with
  | |- context [head Fast_float] => rewrite !Forall_app in H9; tauto
  | |- context [head ?h] => match goal with H : consists (code h) _ _ _ |- _ => destruct H as (_ & H); apply Forall_app in H; exact H end
  end.
Qed.

Lemma plain_tail : Forall (fun line => local_include line = false) tail.
Proof. destruct HS as (_ & _ & _ & _ & _ & _ & _ & _ & (_ & H9)). rewrite !Forall_app in H9. tauto. Qed.

Ltac known h := match goal with H : consists (code h) _ _ _ |- _ => rewrite (proj1 H) end.
Ltac walk := repeat (cbn [map app]; first
  [ rewrite scan_plain by (apply plain_parts)
  | rewrite scan_include
  | rewrite (scan_all _ (body _)) by (apply plain_parts)
  | rewrite (scan_all _ tail) by (apply plain_tail) ]).

Lemma seen_nothing n h seen : In h seen -> preprocess n code seen h = ([], seen).
Proof. intros I. destruct n; [reflexivity|]. cbn [preprocess]. destruct (in_dec header_dec h seen); [reflexivity|contradiction]. Qed.

Lemma fresh n h seen : ~ In h seen -> preprocess (S n) code seen h = scan (preprocess n code) (lines (code h)) (h :: seen).
Proof. intros I. cbn [preprocess]. destruct (in_dec header_dec h seen); [contradiction|reflexivity]. Qed.

Ltac absent := let H := fresh in intros H; cbn [In] in H; intuition discriminate.

(** The order in which the compiler sees the parts. *)
Lemma preprocessed n : (5 <= n)%nat -> fst (preprocess n code [] Fast_float) =
  head Fast_float ++ (head Float_common ++ (head Constexpr_feature_detect ++ body Constexpr_feature_detect) ++ body Float_common) ++ body Fast_float ++
  (head Parse_number ++ (head Ascii_number ++ body Ascii_number) ++
   (head Decimal_to_binary ++ (head Fast_table ++ body Fast_table) ++ body Decimal_to_binary) ++
   (head Digit_comparison ++ (head Bigint ++ body Bigint) ++ body Digit_comparison) ++ body Parse_number) ++ tail.
Proof.
  intros N. destruct HS as (H1 & H2 & H3 & H4 & H5 & H6 & H7 & H8 & (H9 & _)).
  destruct n as [|[|[|[|[|n]]]]]; try lia. clear N.
  assert (CFD : forall m seen, ~ In Constexpr_feature_detect seen -> preprocess (S m) code seen Constexpr_feature_detect =
    (head Constexpr_feature_detect ++ body Constexpr_feature_detect, Constexpr_feature_detect :: seen)).
  { intros m seen F. rewrite fresh by exact F. known Constexpr_feature_detect. walk. reflexivity. }
  assert (FT : forall m seen, ~ In Fast_table seen -> preprocess (S m) code seen Fast_table = (head Fast_table ++ body Fast_table, Fast_table :: seen)).
  { intros m seen F. rewrite fresh by exact F. known Fast_table. walk. reflexivity. }
  assert (FC : forall m seen, ~ In Float_common seen -> ~ In Constexpr_feature_detect seen -> preprocess (S (S m)) code seen Float_common =
    (head Float_common ++ (head Constexpr_feature_detect ++ body Constexpr_feature_detect) ++ body Float_common, Constexpr_feature_detect :: Float_common :: seen)).
  { intros m seen F F'. rewrite fresh by exact F. known Float_common. walk. rewrite CFD by (cbn [In]; intuition discriminate). walk. reflexivity. }
  assert (AN : forall m seen, In Float_common seen -> ~ In Ascii_number seen -> preprocess (S m) code seen Ascii_number =
    (head Ascii_number ++ body Ascii_number, Ascii_number :: seen)).
  { intros m seen F F'. rewrite fresh by exact F'. known Ascii_number. walk. rewrite seen_nothing by (right; exact F). walk. reflexivity. }
  assert (BI : forall m seen, In Float_common seen -> ~ In Bigint seen -> preprocess (S m) code seen Bigint = (head Bigint ++ body Bigint, Bigint :: seen)).
  { intros m seen F F'. rewrite fresh by exact F'. known Bigint. walk. rewrite seen_nothing by (right; exact F). walk. reflexivity. }
  assert (DB : forall m seen, In Float_common seen -> ~ In Decimal_to_binary seen -> ~ In Fast_table seen -> preprocess (S (S m)) code seen Decimal_to_binary =
    (head Decimal_to_binary ++ (head Fast_table ++ body Fast_table) ++ body Decimal_to_binary, Fast_table :: Decimal_to_binary :: seen)).
  { intros m seen F F' F2. rewrite fresh by exact F'. known Decimal_to_binary. walk. rewrite seen_nothing by (right; exact F). cbn [app]. walk.
    rewrite FT by (cbn [In]; intuition discriminate). walk. reflexivity. }
  assert (DC : forall m seen, In Float_common seen -> In Ascii_number seen -> ~ In Digit_comparison seen -> ~ In Bigint seen -> preprocess (S (S m)) code seen Digit_comparison =
    (head Digit_comparison ++ (head Bigint ++ body Bigint) ++ body Digit_comparison, Bigint :: Digit_comparison :: seen)).
  { intros m seen F FA F' F2. rewrite fresh by exact F'. known Digit_comparison. walk. rewrite seen_nothing by (right; exact F). cbn [app]. walk.
    rewrite BI by (cbn [In]; intuition discriminate). cbn [app]. walk. rewrite seen_nothing by (cbn [In]; intuition). walk. cbn [app]. reflexivity. }
  rewrite fresh by (cbn [In]; tauto). rewrite H9. walk. rewrite FC by (cbn [In]; intuition discriminate). walk.
  rewrite fresh by (cbn [In]; intuition discriminate). known Parse_number. walk.
  rewrite AN by (cbn [In]; intuition discriminate). walk. rewrite DB by (cbn [In]; intuition discriminate). walk.
  rewrite DC by (cbn [In]; intuition discriminate). walk. rewrite seen_nothing by (cbn [In]; intuition). walk. cbn [app fst].
  rewrite <- ?app_assoc. cbn [app]. reflexivity.
Qed.

(** The order of the parts in the single header. *)
Lemma remaining_lines h : filter (fun line => negb (local_include line)) (lines (code h)) =
  head h ++ body h ++ match h with Fast_float => tail | _ => [] end.
Proof.
  assert (INC : forall l, filter (fun line => negb (local_include line)) (map include_line l) = []).
  { induction l as [|x l IH]; [reflexivity|]. cbn [map filter]. rewrite include_local. exact IH. }
  assert (C : forall h incs, consists (code h) (head h) incs (body h) -> filter (fun line => negb (local_include line)) (lines (code h)) = head h ++ body h ++ []).
  { intros k incs (E & _). rewrite E, !filter_app, INC, app_nil_r. cbn [app]. destruct (plain_parts k). rewrite !filter_plain by assumption. reflexivity. }
  destruct HS as (H1 & H2 & H3 & H4 & H5 & H6 & H7 & H8 & (H9 & _)).
  destruct h; try (eapply C; eassumption). rewrite H9. rewrite !filter_app. cbn [filter]. rewrite !include_local. cbn [negb app].
  destruct (plain_parts Fast_float). rewrite !filter_plain by (assumption || apply plain_tail). reflexivity.
Qed.
End Headers.


(** *** Lines of a text made of pieces *)

Lemma lines_app a b : lines (a ++ 10 :: b) = lines (a ++ [10]) ++ lines b.
Proof.
  induction a as [|ch a IH]; [reflexivity|]. cbn [app lines]. destruct (ch =? 10) eqn:E.
  - rewrite IH. reflexivity.
  - rewrite IH. destruct (lines (a ++ [10])) as [|l ls] eqn:L; [|reflexivity].
    exfalso. destruct a as [|x a]; [discriminate L|]. cbn [app lines] in L. destruct (x =? 10); [discriminate L|].
    destruct (lines (a ++ [10])); discriminate L.
Qed.

(** A text that is empty or ends with a newline *)
Definition closed (t : text) : Prop := t = [] \/ exists t', t = t' ++ [10].

Lemma closed_app a b : closed a -> closed b -> closed (a ++ b).
Proof.
  intros A [->|(b' & ->)]; [rewrite app_nil_r; exact A|]. right. exists (a ++ b'). apply app_assoc.
Qed.

Lemma lines_closed a b : closed a -> lines (a ++ b) = lines a ++ lines b.
Proof. intros [->|(a' & ->)]; [reflexivity|]. rewrite <- app_assoc. cbn [app]. apply lines_app. Qed.

(** A line: characters other than the newline, then one newline *)
Definition is_line (l : text) : Prop := exists l', l = l' ++ [10] /\ Forall (fun ch => ch <> 10) l'.

Lemma lines_one l : is_line l -> lines l = [l].
Proof.
  intros (l' & -> & F). induction F as [|ch l' N F IH]; [reflexivity|]. cbn [app lines].
  destruct (Z.eqb_spec ch 10); [contradiction|]. rewrite IH. reflexivity.
Qed.

Lemma is_line_closed l : is_line l -> closed l.
Proof. intros (l' & -> & _). right. exists l'. reflexivity. Qed.

Lemma lines_concat ls : Forall is_line ls -> closed (concat ls) /\ lines (concat ls) = ls.
Proof.
  induction 1 as [|l ls L F (C & IH)]; [split; [left|]; reflexivity|]. cbn [concat]. split.
  - apply closed_app; [apply is_line_closed; exact L|exact C].
  - rewrite lines_closed by (apply is_line_closed; exact L). rewrite lines_one by exact L. rewrite IH. reflexivity.
Qed.

(** A line of a file may lack its newline *)
Definition open_line (l : text) : Prop := is_line l \/ Forall (fun ch => ch <> 10) l.

Lemma lines_open t : Forall open_line (lines t).
Proof.
  induction t as [|ch t IH]; [constructor|]. cbn [lines]. destruct (Z.eqb_spec ch 10) as [->|N].
  - constructor; [left; exists []; split; [reflexivity|constructor]|exact IH].
  - destruct (lines t) as [|l ls]; [constructor; [right; constructor; [exact N|constructor]|constructor]|].
    inversion IH as [|? ? L F]; subst. constructor; [|exact F]. destruct L as [(l' & -> & L)|L].
    + left. exists (ch :: l'). split; [reflexivity|constructor; assumption].
    + right. constructor; assumption.
Qed.

Lemma lines_nonempty t : t <> [] -> lines t <> [].
Proof. destruct t as [|ch t]; [congruence|]. intros _. cbn. destruct (ch =? 10); [discriminate|]. destruct (lines t); discriminate. Qed.

Lemma closed_lines t : closed t -> Forall is_line (lines t).
Proof.
  intros [->|(t' & ->)]; [constructor|]. induction t' as [|ch t IH]; [repeat constructor; exists []; split; [reflexivity|constructor]|].
  cbn [app lines]. destruct (Z.eqb_spec ch 10) as [->|N].
  - constructor; [exists []; split; [reflexivity|constructor]|exact IH].
  - destruct (lines (t ++ [10])) as [|l ls] eqn:L.
    { exfalso. revert L. apply lines_nonempty. destruct t; discriminate. }
    inversion IH as [|? ? (l' & -> & LL) F]; subst. constructor; [|exact F].
    exists (ch :: l'). split; [reflexivity|constructor; assumption].
Qed.

(** *** The part before the code *)

Definition comment_line (l : text) : Prop := exists l', l = lit "//" ++ l'.
Definition comments (t : text) : Prop := Forall comment_line (lines t).

Lemma comments_app a b : closed a -> comments a -> comments b -> comments (a ++ b).
Proof. intros C A B. unfold comments. rewrite lines_closed by exact C. apply Forall_app. split; assumption. Qed.

(** A comment without newline in front of comments *)
Lemma comment_open l t : Forall (fun ch => ch <> 10) l -> comments t -> comments (lit "//" ++ l ++ t).
Proof.
  intros F T. unfold comments.
  assert (E : forall m t, Forall (fun ch => ch <> 10) m ->
    lines (m ++ t) = match lines t with [] => match m with [] => [] | _ => [m] end | x :: xs => (m ++ x) :: xs end).
  { clear. intros m t F. induction F as [|ch m N F IH]; [cbn [app]; destruct (lines t); reflexivity|].
    cbn [app lines]. destruct (Z.eqb_spec ch 10); [contradiction|]. rewrite IH. destruct (lines t); [destruct m|]; reflexivity. }
  replace (lit "//" ++ l ++ t) with ((lit "//" ++ l) ++ t) by (symmetry; apply app_assoc).
  rewrite E by (apply Forall_app; split; [vm_compute; repeat constructor; discriminate|exact F]).
  unfold comments in T. destruct (lines t) as [|x xs].
  - cbn [lit app]. repeat constructor. exists l. reflexivity.
  - inversion T; subst. constructor; [|assumption]. exists (l ++ x). symmetry. apply app_assoc.
Qed.

Lemma comment_closed l t : is_line l -> comments t -> comments (lit "//" ++ l ++ t).
Proof.
  intros (l' & -> & F) T. rewrite app_assoc.
  assert (L : is_line (lit "//" ++ l' ++ [10])).
  { exists (lit "//" ++ l'). split; [apply app_assoc|]. apply Forall_app; split; [vm_compute; repeat constructor; discriminate|exact F]. }
  apply comments_app; [apply is_line_closed; exact L| |exact T].
  unfold comments. rewrite lines_one by exact L. repeat constructor. exists (l' ++ [10]). reflexivity.
Qed.

Lemma comment_piece (rest : text) l t : Forall (fun ch => ch <> 10) rest -> open_line l -> comments t -> comments ((lit "//" ++ rest ++ l) ++ t).
Proof.
  intros R [(l' & -> & F)|F] T; rewrite <- !app_assoc.
  - replace (rest ++ l' ++ [10] ++ t) with ((rest ++ l' ++ [10]) ++ t) by (rewrite <- !app_assoc; reflexivity).
    apply comment_closed; [|exact T]. exists (rest ++ l'). split; [apply app_assoc|]. apply Forall_app. split; assumption.
  - replace (rest ++ l ++ t) with ((rest ++ l) ++ t) by (rewrite <- !app_assoc; reflexivity).
    apply comment_open; [|exact T]. apply Forall_app. split; assumption.
Qed.

Definition last_line (t : text) : Prop := exists t', t = t' ++ lit "//" ++ [10] /\ closed t'.

Lemma people_comments rest file : Forall (fun ch => ch <> 10) rest ->
  comments (people (lit "//" ++ rest) file) /\ last_line (people (lit "//" ++ rest) file).
Proof.
  intros R. unfold people. split.
  - generalize (lines_open file). induction (lines file) as [|l ls IH]; intros F.
    + cbn [map concat app]. unfold comments. vm_compute. repeat constructor; eexists; reflexivity.
    + inversion F as [|? ? L FL]; subst. cbn [map concat]. rewrite <- (app_assoc (lit "//") rest l), <- app_assoc.
      apply comment_piece; [exact R|exact L|]. apply IH. exact FL.
  - exists (concat (map (fun line => (lit "//" ++ rest) ++ line) (lines file)) ++ lit "//" ++ [10]). split.
    + rewrite <- !app_assoc. reflexivity.
    + right. eexists. rewrite app_assoc. reflexivity.
Qed.

Lemma Forall_lstrip (P : Z -> Prop) space t : Forall P t -> Forall P (lstrip space t).
Proof. induction 1 as [|ch t H F IH]; cbn; [constructor|]. destruct (space ch); [exact IH|constructor; assumption]. Qed.

Lemma lstrip_app space a b : lstrip space (a ++ b) = match lstrip space a with [] => lstrip space b | r => r ++ b end.
Proof. induction a as [|ch a IH]; [reflexivity|]. cbn. destruct (space ch); [exact IH|reflexivity]. Qed.

(** Python strips the newline of a line *)
Lemma strip_line space l : space 10 = true -> open_line l -> Forall (fun ch => ch <> 10) (strip space l).
Proof.
  intros SP L. unfold strip. apply Forall_rev. destruct L as [(l' & -> & F)|F].
  - rewrite lstrip_app. generalize (Forall_lstrip _ space _ F). destruct (lstrip space l') as [|x xs]; intros F'.
    + cbn. rewrite SP. constructor.
    + rewrite rev_app_distr. cbn [rev app lstrip]. rewrite SP. apply Forall_lstrip. apply (Forall_rev F').
  - apply Forall_lstrip, Forall_rev, Forall_lstrip. exact F.
Qed.

Lemma commented_comments space ls : space 10 = true -> Forall open_line ls -> comments (commented space ls) /\ closed (commented space ls).
Proof.
  intros SP F. unfold commented.
  match goal with |- context [concat ?m] => set (M := m) end.
  assert (L : Forall (fun l => is_line l /\ comment_line l) M).
  { subst M. apply Forall_map. revert F. apply Forall_impl. intros l O. cbv zeta. pose proof (strip_line space l SP O) as N.
    destruct (strip space l) as [|ch t]; (split; [|eexists; reflexivity]).
    - exists (lit "//"). split; [reflexivity|]. vm_compute. repeat constructor; discriminate.
    - exists (lit "//" ++ lit "    " ++ ch :: t). split; [rewrite <- !app_assoc; reflexivity|].
      apply Forall_app; split; [vm_compute; repeat constructor; discriminate|].
      apply Forall_app; split; [vm_compute; repeat constructor; discriminate|exact N]. }
  destruct (lines_concat _ (Forall_impl _ (fun l H => proj1 H) L)) as (C & E). split; [|exact C].
  unfold comments. rewrite E. exact (Forall_impl _ (fun l H => proj2 H) L).
Qed.

Lemma apache_open file : Forall open_line (apache_lines file).
Proof.
  unfold apache_lines. constructor.
  - left. exists (lit "   Copyright 2021 The fast_float authors"). split; [reflexivity|]. vm_compute. repeat constructor; discriminate.
  - generalize (lines_open file). generalize (lines file). intros ls F.
    assert (S1 : Forall open_line (skipn 179 ls)). { rewrite <- (firstn_skipn 179 ls) in F. apply Forall_app in F. apply F. }
    clear F. induction (skipn 179 ls) as [|l r IH]; [constructor|]. inversion S1; subst. cbn. destruct r; [constructor|].
    constructor; [assumption|]. apply IH. assumption.
Qed.

Lemma good_app a b : (comments a /\ closed a) -> (comments b /\ closed b) -> comments (a ++ b) /\ closed (a ++ b).
Proof. intros (A & CA) (B & CB). split; [apply comments_app|apply closed_app]; assumption. Qed.

Lemma good_line s : Forall (fun ch => ch <> 10) s -> comments (lit "//" ++ s ++ [10]) /\ closed (lit "//" ++ s ++ [10]).
Proof.
  intros F. assert (L : is_line (lit "//" ++ s ++ [10])).
  { exists (lit "//" ++ s). split; [apply app_assoc|]. apply Forall_app; split; [vm_compute; repeat constructor; discriminate|exact F]. }
  split; [|apply is_line_closed; exact L]. unfold comments. rewrite lines_one by exact L. repeat constructor. eexists. reflexivity.
Qed.

Lemma good_nil : comments [] /\ closed [].
Proof. split; [constructor|left; reflexivity]. Qed.

(** *** C72 *)

(** What the script writes begins with comments and nothing else, whatever the license
    files and the list of contributors contain; the last of them ends its line, and is
    not continued on the next by a backslash. *)
Theorem single_header_preamble :
  forall (space : Z -> bool) (fs : files) (arg : license), space 10 = true ->
  exists preamble : text,
    amalgamated space fs arg = preamble ++ concat (map (fun h => processed (code_of fs h)) all_headers) /\
    Forall comment_line (lines preamble) /\ last_line preamble.
Proof.
  intros space fs arg SP.
  exists (people (lit "// fast_float by ") (authors fs) ++ people (lit "// with contributions from ") (contributors fs) ++ license_content space fs arg).
  split; [unfold amalgamated, all_headers; rewrite <- !app_assoc; reflexivity|].
  destruct (people_comments (lit " fast_float by ") (authors fs)) as (CA & LA); [vm_compute; repeat constructor; discriminate|].
  destruct (people_comments (lit " with contributions from ") (contributors fs)) as (CB & LB); [vm_compute; repeat constructor; discriminate|].
  change (lit "//" ++ lit " fast_float by ") with (lit "// fast_float by ") in *.
  change (lit "//" ++ lit " with contributions from ") with (lit "// with contributions from ") in *.
  assert (CL : forall t, last_line t -> closed t). { intros t (t' & -> & _). right. exists (t' ++ lit "//"). apply app_assoc. }
  assert (W : forall p a, last_line a -> closed p -> last_line (p ++ a)).
  { intros p a (a' & -> & C) P. exists (p ++ a'). split; [apply app_assoc|apply closed_app; assumption]. }
  assert (LC : comments (license_content space fs arg) /\ last_line (license_content space fs arg)).
  { pose proof (commented_comments space _ SP (lines_open (license_mit fs))) as M.
    pose proof (commented_comments space _ SP (apache_open (license_apache fs))) as A.
    pose proof (commented_comments space _ SP (lines_open (license_boost fs))) as B.
    assert (END : comments (lit "//" ++ [10]) /\ closed (lit "//" ++ [10])) by (apply (good_line []); constructor).
    assert (LL : forall t, closed t -> last_line (t ++ lit "//" ++ [10])) by (intros t C; exists t; split; [reflexivity|exact C]).
    assert (MIT : let t := lit "// MIT License Notice" ++ [10] ++ lit "//" ++ [10] ++ commented space (lines (license_mit fs)) in
      (comments (t ++ lit "//" ++ [10])) /\ last_line (t ++ lit "//" ++ [10])).
    { cbv zeta. assert (G : forall t, t = lit "// MIT License Notice" ++ [10] ++ lit "//" ++ [10] ++ commented space (lines (license_mit fs)) -> comments t /\ closed t).
      { intros t ->. apply (good_app (lit "//" ++ lit " MIT License Notice" ++ [10])); [apply good_line; vm_compute; repeat constructor; discriminate|].
        apply (good_app (lit "//" ++ [10])); [exact END|exact M]. }
      split; [apply (good_app _ _ (G _ eq_refl) END)|apply LL, (G _ eq_refl)]. }
    assert (APA : let t := lit "// Apache License (Version 2.0) Notice" ++ [10] ++ lit "//" ++ [10] ++ commented space (apache_lines (license_apache fs)) in
      (comments (t ++ lit "//" ++ [10])) /\ last_line (t ++ lit "//" ++ [10])).
    { cbv zeta. assert (G : forall t, t = lit "// Apache License (Version 2.0) Notice" ++ [10] ++ lit "//" ++ [10] ++ commented space (apache_lines (license_apache fs)) -> comments t /\ closed t).
      { intros t ->. apply (good_app (lit "//" ++ lit " Apache License (Version 2.0) Notice" ++ [10])); [apply good_line; vm_compute; repeat constructor; discriminate|].
        apply (good_app (lit "//" ++ [10])); [exact END|exact A]. }
      split; [apply (good_app _ _ (G _ eq_refl) END)|apply LL, (G _ eq_refl)]. }
    assert (BOO : let t := lit "// BOOST License Notice" ++ [10] ++ lit "//" ++ [10] ++ commented space (lines (license_boost fs)) in
      (comments (t ++ lit "//" ++ [10])) /\ last_line (t ++ lit "//" ++ [10])).
    { cbv zeta. assert (G : forall t, t = lit "// BOOST License Notice" ++ [10] ++ lit "//" ++ [10] ++ commented space (lines (license_boost fs)) -> comments t /\ closed t).
      { intros t ->. apply (good_app (lit "//" ++ lit " BOOST License Notice" ++ [10])); [apply good_line; vm_compute; repeat constructor; discriminate|].
        apply (good_app (lit "//" ++ [10])); [exact END|exact B]. }
      split; [apply (good_app _ _ (G _ eq_refl) END)|apply LL, (G _ eq_refl)]. }
    cbv zeta in MIT, APA, BOO. rewrite <- !app_assoc in MIT, APA, BOO.
    assert (J : forall a b, comments a /\ last_line a -> comments b /\ last_line b -> comments (a ++ b) /\ last_line (a ++ b)).
    { intros a b (X & Y) (Z & V). split; [apply comments_app; auto|apply W; auto]. }
    assert (TR : comments (lit "// Licensed under the Apache License, Version 2.0, or the" ++ [10] ++
               lit "// MIT License or the Boost License. This file may not be copied," ++ [10] ++
               lit "// modified, or distributed except according to those terms." ++ [10] ++ lit "//" ++ [10]) /\
      last_line (lit "// Licensed under the Apache License, Version 2.0, or the" ++ [10] ++
               lit "// MIT License or the Boost License. This file may not be copied," ++ [10] ++
               lit "// modified, or distributed except according to those terms." ++ [10] ++ lit "//" ++ [10])).
    { split; [vm_compute; repeat (constructor; [eexists; reflexivity|]); constructor|].
      eexists (lit "// Licensed under the Apache License, Version 2.0, or the" ++ [10] ++
               lit "// MIT License or the Boost License. This file may not be copied," ++ [10] ++
               lit "// modified, or distributed except according to those terms." ++ [10]). split; [reflexivity|].
      right. eexists (lit "// Licensed under the Apache License, Version 2.0, or the" ++ [10] ++
               lit "// MIT License or the Boost License. This file may not be copied," ++ [10] ++
               lit "// modified, or distributed except according to those terms."). reflexivity. }
    assert (DU : comments (lit "// Licensed under the Apache License, Version 2.0, or the" ++ [10] ++
               lit "// MIT License at your option. This file may not be copied," ++ [10] ++
               lit "// modified, or distributed except according to those terms." ++ [10] ++ lit "//" ++ [10]) /\
      last_line (lit "// Licensed under the Apache License, Version 2.0, or the" ++ [10] ++
               lit "// MIT License at your option. This file may not be copied," ++ [10] ++
               lit "// modified, or distributed except according to those terms." ++ [10] ++ lit "//" ++ [10])).
    { split; [vm_compute; repeat (constructor; [eexists; reflexivity|]); constructor|].
      eexists (lit "// Licensed under the Apache License, Version 2.0, or the" ++ [10] ++
               lit "// MIT License at your option. This file may not be copied," ++ [10] ++
               lit "// modified, or distributed except according to those terms." ++ [10]). split; [reflexivity|].
      right. eexists (lit "// Licensed under the Apache License, Version 2.0, or the" ++ [10] ++
               lit "// MIT License at your option. This file may not be copied," ++ [10] ++
               lit "// modified, or distributed except according to those terms."). reflexivity. }
    unfold license_content. destruct arg; rewrite ?app_nil_r; rewrite ?app_nil_l; repeat (first [exact MIT|exact APA|exact BOO|exact TR|exact DU|apply J]). }
  destruct LC as (LC & LE). split; [|apply W; [apply W; [exact LE|apply CL; exact LB]|apply CL; exact LA]].
  apply comments_app; [apply CL; exact LA|exact CA|]. apply comments_app; [apply CL; exact LB|exact CB|exact LC].
Qed.
Print Assumptions single_header_preamble.

(** A line with something in it *)
Definition not_empty (l : text) : bool := match l with [ch] => negb (ch =? 10) | _ => true end.

(** The parts of the headers *)
Inductive part := Head (h : header) | Body (h : header) | Tail.
Definition bodies (order : list part) : list header := flat_map (fun p => match p with Body h => [h] | _ => [] end) order.
Definition heads_first (order : list part) : Prop :=
  forall h, exists before between after, order = before ++ Head h :: between ++ Body h :: after.

(** C72: whatever the headers contain around their includes, and whatever license is
    chosen, the single header has the same lines as the compiler sees with the headers;
    the bodies of the headers come in the same order, each once and after the guards and
    system includes at the head of its header.  Nothing else is added but comments and
    empty lines. *)
Theorem single_header_same_code :
  forall (space : Z -> bool) (fs : files) (arg : license) (head body : header -> list text) (tail : list text) (n : nat),
  space 10 = true -> headers (code_of fs) head body tail -> (forall h, closed (code_of fs h)) -> (5 <= n)%nat ->
  let lines_of p := match p with Head h => head h | Body h => body h | Tail => tail end in
  exists (order order' : list part) (preamble code : list text),
    fst (preprocess n (code_of fs) [] Fast_float) = concat (map lines_of order) /\
    lines (amalgamated space fs arg) = preamble ++ code /\
    Forall comment_line preamble /\
    filter not_empty code = filter not_empty (concat (map lines_of order')) /\
    Permutation order order' /\ NoDup order /\ In Tail order /\
    bodies order = bodies order' /\ heads_first order /\ heads_first order'.
Proof.
  intros space fs arg head body tail n SP HS CL N. cbv zeta.
  destruct (single_header_preamble space fs arg SP) as (pre & E & CP & LP).
  set (order := [Head Fast_float; Head Float_common; Head Constexpr_feature_detect; Body Constexpr_feature_detect; Body Float_common; Body Fast_float;
    Head Parse_number; Head Ascii_number; Body Ascii_number; Head Decimal_to_binary; Head Fast_table; Body Fast_table; Body Decimal_to_binary;
    Head Digit_comparison; Head Bigint; Body Bigint; Body Digit_comparison; Body Parse_number; Tail]).
  set (order' := [Head Constexpr_feature_detect; Body Constexpr_feature_detect; Head Float_common; Body Float_common; Head Fast_float; Body Fast_float; Tail;
    Head Ascii_number; Body Ascii_number; Head Fast_table; Body Fast_table; Head Decimal_to_binary; Body Decimal_to_binary;
    Head Bigint; Body Bigint; Head Digit_comparison; Body Digit_comparison; Head Parse_number; Body Parse_number]).
  exists order, order', (lines pre), (concat (map (fun h => [10] :: filter (fun line => negb (local_include line)) (lines (code_of fs h))) all_headers)).
  assert (ND : NoDup order) by (subst order; repeat (constructor; [cbn [In]; intuition discriminate|]); constructor).
  assert (ND' : NoDup order') by (subst order'; repeat (constructor; [cbn [In]; intuition discriminate|]); constructor).
  assert (FIRST : forall l : list part, forallb (fun h => match find (fun k => match nth_error l k with Some (Head x) => if header_dec x h then true else false | _ => false end) (seq 0 (length l)) with
      | Some i => existsb (fun k => match nth_error l k with Some (Body x) => if header_dec x h then true else false | _ => false end) (seq (S i) (length l)) | None => false end) all_headers = true -> heads_first l).
  { intros l T h. rewrite forallb_forall in T. specialize (T h). cbv beta in T.
    assert (I : In h all_headers) by (destruct h; cbn [all_headers In]; tauto). specialize (T I).
    destruct (find _ (seq 0 (length l))) as [i|] eqn:F; [|discriminate T]. apply find_some in F. destruct F as (_ & F).
    destruct (nth_error l i) as [[x| |]|] eqn:NI; try discriminate F. destruct (header_dec x h) as [->|]; [|discriminate F].
    apply existsb_exists in T. destruct T as (k & K & T). apply in_seq in K.
    destruct (nth_error l k) as [[|y|]|] eqn:NK; try discriminate T. destruct (header_dec y h) as [->|]; [|discriminate T].
    apply nth_error_split in NI. destruct NI as (a & b & -> & <-).
    rewrite nth_error_app2 in NK by lia. destruct (k - length a)%nat as [|j] eqn:J; [lia|]. cbn [nth_error] in NK.
    apply nth_error_split in NK. destruct NK as (m & r & -> & _). exists a, m, r. reflexivity. }
  split; [rewrite (preprocessed (code_of fs) head body tail HS n N); cbn [order map concat]; rewrite <- ?app_assoc; rewrite ?app_nil_r; reflexivity|].
  split.
  { rewrite E. rewrite lines_closed by (destruct LP as (t & -> & _); right; exists (t ++ lit "//"); apply app_assoc). f_equal.
    generalize all_headers. induction l as [|h l IH]; [reflexivity|]. cbn [map concat]. rewrite <- IH.
    assert (Q : Forall is_line ([10] :: filter (fun line => negb (local_include line)) (lines (code_of fs h)))).
    { constructor; [exists []; split; [reflexivity|constructor]|]. generalize (closed_lines _ (CL h)). generalize (lines (code_of fs h)).
      induction 1 as [|x xs X XS I]; [constructor|]. cbn [filter]. destruct (negb (local_include x)); [constructor|]; assumption. }
    destruct (lines_concat _ Q) as (C & L). change (processed (code_of fs h)) with (concat ([10] :: filter (fun line => negb (local_include line)) (lines (code_of fs h)))).
    rewrite lines_closed by exact C. rewrite L. reflexivity. }
  split; [exact CP|].
  split.
  { cbn [all_headers map concat order']. rewrite !(remaining_lines (code_of fs) head body tail HS). cbn [app]. rewrite ?app_nil_r.
    assert (E10 : forall ls, filter not_empty ([10] :: ls) = filter not_empty ls) by reflexivity.
    rewrite <- ?app_assoc. cbn [app]. repeat (rewrite E10 || rewrite filter_app). rewrite ?app_nil_r. reflexivity. }
  split; [apply NoDup_Permutation|].
  - exact ND.
  - exact ND'.
  - intros x. split; intros _; subst order order'; destruct x as [[]|[]|]; cbn [In]; tauto.
  - split; [exact ND|].
    split; [subst order; cbn [In]; tauto|]. split; [reflexivity|]. split; apply FIRST; vm_compute; reflexivity.
Qed.
Print Assumptions single_header_same_code.

(** *** An example: nine small headers with the includes of the library *)
Definition example_code (h : header) : text :=
  let line s := lit s%string ++ [10] in
  let file head includes body := concat (map line head) ++ concat (map include_line includes) ++ concat (map line body) in
  match h with
  | Constexpr_feature_detect => file ["#ifndef A"%string] [] ["int a;"%string; "#endif"%string]
  | Float_common => file ["#ifndef B"%string; "#include <cfloat>"%string] [Constexpr_feature_detect] ["int b;"%string; "#endif"%string]
  | Ascii_number => file ["#ifndef C"%string] [Float_common] ["int c;"%string; ""%string; "#endif"%string]
  | Fast_table => file ["#ifndef D"%string] [] ["int d;"%string; "#endif"%string]
  | Decimal_to_binary => file ["#ifndef E"%string] [Float_common; Fast_table] ["#include <cmath>"%string; "int e;"%string; "#endif"%string]
  | Bigint => file ["#ifndef F"%string] [Float_common] ["int f;"%string; "#endif"%string]
  | Digit_comparison => file ["#ifndef G"%string] [Float_common; Bigint; Ascii_number] ["int g;"%string; "#endif"%string]
  | Parse_number => file ["#ifndef H"%string] [Ascii_number; Decimal_to_binary; Digit_comparison; Float_common] ["int h;"%string; "#endif"%string]
  | Fast_float => file ["#ifndef I"%string] [Float_common] ["int i;"%string] ++ include_line Parse_number ++ line "#endif"%string
  end.
Definition example_head (h : header) : list text :=
  let line s := lit s%string ++ [10] in
  match h with
  | Constexpr_feature_detect => [line "#ifndef A"%string] | Float_common => [line "#ifndef B"%string; line "#include <cfloat>"%string]
  | Ascii_number => [line "#ifndef C"%string] | Fast_table => [line "#ifndef D"%string] | Decimal_to_binary => [line "#ifndef E"%string]
  | Bigint => [line "#ifndef F"%string] | Digit_comparison => [line "#ifndef G"%string] | Parse_number => [line "#ifndef H"%string] | Fast_float => [line "#ifndef I"%string]
  end.
Definition example_body (h : header) : list text :=
  let line s := lit s%string ++ [10] in
  match h with
  | Constexpr_feature_detect => [line "int a;"%string; line "#endif"%string] | Float_common => [line "int b;"%string; line "#endif"%string]
  | Ascii_number => [line "int c;"%string; line ""%string; line "#endif"%string] | Fast_table => [line "int d;"%string; line "#endif"%string]
  | Decimal_to_binary => [line "#include <cmath>"%string; line "int e;"%string; line "#endif"%string]
  | Bigint => [line "int f;"%string; line "#endif"%string] | Digit_comparison => [line "int g;"%string; line "#endif"%string] | Parse_number => [line "int h;"%string; line "#endif"%string]
  | Fast_float => [line "int i;"%string]
  end.

Example single_header_example :
  headers example_code example_head example_body [lit "#endif" ++ [10]] /\ (forall h, closed (example_code h)) /\
  (let fs := {| authors := lit "Ann"; contributors := lit "Bob" ++ [10] ++ lit "Cy"; license_mit := lit " MIT " ++ [10]; license_apache := []; license_boost := [];
                code_of := example_code |} in
   firstn 9 (lines (amalgamated (fun ch => (ch =? 32) || (ch =? 10)) fs Mit)) =
   [lit "// fast_float by Ann//" ++ [10]; lit "//" ++ [10]; lit "// with contributions from Bob" ++ [10]; lit "// with contributions from Cy//" ++ [10];
    lit "//" ++ [10]; lit "// MIT License Notice" ++ [10]; lit "//" ++ [10]; lit "//    MIT" ++ [10]; lit "//" ++ [10]]).
Proof.
  split; [|split].
  - unfold headers, consists. repeat split; try (vm_compute; reflexivity); vm_compute; repeat constructor.
  - intros h. right. exists (removelast (example_code h)). destruct h; vm_compute; reflexivity.
  - vm_compute. reflexivity.
Qed.
