(** Property C56: formats are combined with | & ^ ~ like sets of permissions,
    and adding or taking away a permission this way has the effect it should. *)
From Verif Require Import Machine Config Chars Format FormatOps ParseNumber DecToBin FromChars Ints WordLemmas
  SpecFloat SpecGrammar SpecApi SpecRel SpecText SpecInt SpecIntApi Scan ParseSpec Special FloatApi IntApi Props_Pow10 Props_Relations
  FloatMaster TextSpec Props_Texts Props_Grammar Props_Options Props_Ignored Props_Ints.
Open Scope Z_scope.

(** The values of chars_format. *)
Definition format_value (x : Z) : Prop := 0 <= x < 2 ^ 64.

(** Flag number [k] of a format. *)
Definition has_flag (x k : Z) : bool := Z.testbit x k.

Lemma format_bits x : format_value x -> forall k, 64 <= k -> Z.testbit x k = false.
Proof.
  intros H k K. destruct (Z.eq_dec x 0) as [->|N]; [apply Z.bits_0|]. apply Z.bits_above_log2; [apply H|].
  apply Z.lt_le_trans with 64; [|exact K]. apply Z.log2_lt_pow2; [|apply H]. unfold format_value in H. lia.
Qed.

Lemma bits_format x : 0 <= x -> (forall k, 64 <= k -> Z.testbit x k = false) -> format_value x.
Proof.
  intros P H. split; [exact P|]. destruct (Z_lt_le_dec x (2 ^ 64)) as [L|L]; [exact L|exfalso].
  assert (64 <= Z.log2 x) by (apply Z.log2_le_pow2; lia). specialize (H _ H0). rewrite Z.bit_log2 in H by lia. discriminate H.
Qed.

(** *** The operators are the operations on sets of flags *)
Theorem format_operators : forall x y : Z, format_value x -> format_value y ->
  (format_value (format_not x) /\ format_value (format_and x y) /\ format_value (format_or x y) /\ format_value (format_xor x y)) /\
  (forall k, 0 <= k < 64 ->
     has_flag (format_not x) k = negb (has_flag x k) /\
     has_flag (format_and x y) k = has_flag x k && has_flag y k /\
     has_flag (format_or x y) k = has_flag x k || has_flag y k /\
     has_flag (format_xor x y) k = xorb (has_flag x k) (has_flag y k)) /\
  format_and_assign x y = format_and x y /\ format_or_assign x y = format_or x y /\ format_xor_assign x y = format_xor x y.
Proof.
  intros x y HX HY. pose proof (format_bits x HX) as BX. pose proof (format_bits y HY) as BY.
  unfold has_flag, format_not, format_and, format_or, format_xor. split; [|split; [|repeat split]].
  - split; [apply Z.mod_pos_bound; lia|]. unfold format_value in HX, HY.
    split; [|split]; apply bits_format.
    + apply Z.land_nonneg. lia.
    + intros k K. rewrite Z.land_spec, BX by exact K. reflexivity.
    + apply Z.lor_nonneg. lia.
    + intros k K. rewrite Z.lor_spec, BX, BY by exact K. reflexivity.
    + apply Z.lxor_nonneg. lia.
    + intros k K. rewrite Z.lxor_spec, BX, BY by exact K. reflexivity.
  - intros k K. unfold u64. rewrite Z.mod_pow2_bits_low by lia. rewrite Z.lnot_spec, Z.land_spec, Z.lor_spec, Z.lxor_spec by lia. auto.
Qed.
Print Assumptions format_operators.

(** Two formats with the same flags are the same. *)
Theorem format_extensional : forall x y : Z, format_value x -> format_value y ->
  (forall k, 0 <= k < 64 -> has_flag x k = has_flag y k) -> x = y.
Proof.
  intros x y HX HY H. apply Z.bits_inj'. intros k K. destruct (Z_lt_le_dec k 64) as [L|L]; [apply H; lia|].
  rewrite (format_bits x HX k L), (format_bits y HY k L). reflexivity.
Qed.
Print Assumptions format_extensional.

(** *** Effects on parsing *)
Definition with_format (o : options) (f : Z) : options :=
  {| o_format := f; o_decimal_point := o_decimal_point o; o_base := o_base o |}.

Lemma or_flag x y k : 0 <= k < 64 -> Z.testbit (format_or x y) k = Z.testbit x k || Z.testbit y k.
Proof. intros K. apply Z.lor_spec. Qed.
Lemma and_not_flag x y k : 0 <= k < 64 -> Z.testbit (format_and x (format_not y)) k = Z.testbit x k && negb (Z.testbit y k).
Proof.
  intros K. unfold format_and, format_not, u64. rewrite Z.land_spec, Z.mod_pow2_bits_low by lia. rewrite Z.lnot_spec by lia. reflexivity.
Qed.

(** [fmt | allow_leading_plus], [fmt | skip_white_space], [fmt | fixed],
    [fmt & ~no_infnan] and [fmt & ~basic_json] accept what [fmt] accepts, with
    the same result. *)
Theorem from_chars_more_flags :
  forall (c : cfg) (u : uc) (t : ftype) (o : options) (f' : Z) (s rest : list Z) (x : ec) (v : option Z),
  In f' [format_or (o_format o) f_allow_leading_plus; format_or (o_format o) f_skip_white_space;
         format_or (o_format o) f_fixed; format_and (o_format o) (format_not f_no_infnan);
         format_and (o_format o) (format_not f_basic_json)] ->
  neutral (o_decimal_point o) -> good_text c u (with_format o f') s ->
  from_chars_float_advanced c u t s o = Ok {| r_ptr := rest; r_ec := x; r_value := v |} -> x <> InvalidArgument ->
  from_chars_float_advanced c u t s (with_format o f') = Ok {| r_ptr := rest; r_ec := x; r_value := v |}.
Proof.
  intros c u t o f' s rest x v F NP G E NI. refine (from_chars_permits_more c u t o (with_format o f') s rest x v _ NP G E NI).
  unfold permits_more, with_format. cbn [o_format o_decimal_point]. cbn [In] in F.
  destruct F as [F|[F|[F|[F|[F|[]]]]]]; subst f'; rewrite ?or_flag, ?and_not_flag by lia; split; try reflexivity;
    repeat match goal with |- context [Z.testbit (o_format o) ?k] => destruct (Z.testbit (o_format o) k) end; vm_compute; repeat split; intros; try reflexivity; discriminate.
Qed.
Print Assumptions from_chars_more_flags.

(** The same for integers. *)
Lemma int_text_more signed_type plus base s neg ds rest : 2 <= base <= 36 ->
  int_text signed_type plus base s neg ds rest -> ds <> [] ->
  forall plus', (plus = true -> plus' = true) -> int_text signed_type plus' base s neg ds rest.
Proof.
  intros B (s1 & SG & R) ND plus' P. exists s1. split; [|exact R].
  inversion SG as [? S|? H|? N]; subst; [apply int_minus; reflexivity|apply int_plus; auto|]. apply int_unsigned.
  destruct s1 as [|ch s1]; [exact I|]. cbn in N |- *. intros [H|(-> & H)]; [tauto|].
  destruct R as (E & D & _). destruct ds as [|d ds]; [contradiction|]. injection E as <- _.
  inversion D as [|? ? (x & DX & _) _]. discriminate DX.
Qed.

Lemma int_text_first signed_type plus base s neg ds rest :
  int_text signed_type plus base s neg ds rest -> ds <> [] -> not_at (fun ch => space ch = true) s.
Proof.
  intros (s1 & SG & R) ND. inversion SG; subst; [cbn; discriminate|cbn; discriminate|].
  destruct R as (E & D & _). destruct ds as [|d ds]; [contradiction|]. cbn in E. subst s1. cbn.
  inversion D as [|? ? (x & DX & _) _]. intros SP. unfold digit_of in DX.
  destruct (space_cases d SP) as [-> | [-> | [-> | [-> | [-> | ->]]]]]; discriminate DX.
Qed.

Theorem from_chars_int_more_flags :
  forall (c : cfg) (u : uc) (T : ity) (o : options) (f' : Z) (s rest : list Z) (x : ec) (v : option Z),
  int_type T ->
  In f' [format_or (o_format o) f_allow_leading_plus; format_or (o_format o) f_skip_white_space] ->
  good_int_text c u (with_format o f') s ->
  from_chars_int_advanced c u T s o = Ok {| r_ptr := rest; r_ec := x; r_value := v |} -> x <> InvalidArgument ->
  from_chars_int_advanced c u T s (with_format o f') = Ok {| r_ptr := rest; r_ec := x; r_value := v |}.
Proof.
  intros c u T o f' s rest x v IT F G' E NI. set (o' := with_format o f') in *.
  assert (SK : skips_space c o = true -> skips_space c o' = true).
  { unfold skips_space, o', with_format. cbn [o_format]. cbn [In] in F.
    destruct F as [F|[F|[]]]; subst f'; rewrite or_flag by lia; destruct (Z.testbit (o_format o) 8), (macro_skip_ws c); auto. }
  assert (PL : leading_plus (rules_of c o) = true -> leading_plus (rules_of c o') = true).
  { unfold rules_of, o', with_format. cbn [o_format leading_plus]. cbn [In] in F.
    destruct F as [F|[F|[]]]; subst f'; rewrite or_flag by lia; destruct (Z.testbit (o_format o) 7), (macro_leading_plus c); auto. }
  assert (G : good_int_text c u o s). { destruct G' as (A & B). split; [exact A|]. intros EU S. apply B; auto. }
  destruct (starts_exists c o s) as (s0 & SA).
  assert (BB : 2 <= o_base o <= 36).
  { destruct (skip_space_int c u o s s0 G SA) as (ES & _).
    unfold from_chars_int_advanced in E. rewrite ES in E. cbn [bind] in E.
    destruct s0 as [|ch s0]; [injection E as _ <- _; congruence|].
    destruct (Z.ltb_spec (o_base o) 2); [injection E as _ <- _; congruence|].
    destruct (Z.ltb_spec 36 (o_base o)); [injection E as _ <- _; congruence|]. lia. }
  destruct (int_text_exists (i_signed T) (leading_plus (rules_of c o)) (o_base o) s0 BB) as (neg & ds & r & TX).
  destruct (int_main c u T o s s0 neg ds r IT G SA BB TX) as (_ & [(_ & E1)|(ND & M)]).
  { rewrite E1 in E. injection E as _ <- _. congruence. }
  pose proof (int_text_more _ _ _ _ _ _ _ BB TX ND _ PL) as TX'.
  pose proof (starts_more c o o' s s0 SK SA (int_text_first _ _ _ _ _ _ _ TX ND)) as SA'.
  destruct (int_main c u T o' s s0 neg ds r IT G' SA' BB TX') as (_ & [(E0 & _)|(_ & M')]); [contradiction|].
  change (o_base o') with (o_base o) in M'.
  rewrite <- E. destruct M as [(A & ->)|[(A & A2 & ->)|(A & A2 & ->)]]; destruct M' as [(B & ->)|[(B & B2 & ->)|(B & B2 & ->)]];
    try reflexivity; try lia; try contradiction.
Qed.
Print Assumptions from_chars_int_more_flags.

(** Setting a flag and clearing it again, or toggling it twice, is no change. *)
Theorem format_undo : forall x f : Z, format_value x -> format_value f ->
  ((forall k, 0 <= k < 64 -> has_flag f k = true -> has_flag x k = false) -> format_and (format_or x f) (format_not f) = x) /\
  format_xor (format_xor x f) f = x /\
  format_or (format_and x f) (format_and x (format_not f)) = x.
Proof.
  intros x f HX HF.
  destruct (format_operators x f HX HF) as ((NX & AX & OX & XX) & _).
  destruct (format_operators f f HF HF) as ((NF & _) & _).
  split; [|split].
  - intros H. apply format_extensional; [|exact HX|].
    { apply (format_operators _ _ OX NF). }
    intros k K. specialize (H k K). unfold has_flag in *. rewrite and_not_flag, or_flag by lia.
    destruct (Z.testbit f k); [rewrite H by reflexivity; reflexivity|]. rewrite orb_false_r, andb_true_r. reflexivity.
  - apply format_extensional; [apply (format_operators _ _ XX HF)|exact HX|].
    intros k K. unfold has_flag, format_xor. rewrite !Z.lxor_spec. destruct (Z.testbit x k), (Z.testbit f k); reflexivity.
  - assert (AN : format_value (format_and x (format_not f))) by apply (format_operators _ _ HX NF).
    apply format_extensional; [apply (format_operators _ _ AX AN)|exact HX|].
    intros k K. unfold has_flag. rewrite or_flag, and_not_flag by lia. unfold format_and. rewrite Z.land_spec.
    destruct (Z.testbit x k), (Z.testbit f k); reflexivity.
Qed.
Print Assumptions format_undo.

(** json | allow_leading_plus, and general without nan; " +7" is no number for
    general, and 7 with both flags added. *)
Example format_example :
  format_or f_json f_allow_leading_plus = 181 /\ format_and f_json (format_not f_no_infnan) = f_json_or_infnan /\
  format_not f_general = 2 ^ 64 - 6 /\ format_value f_json /\ neutral 46 /\
  let o := {| o_format := f_general; o_decimal_point := 46; o_base := 10 |} in
  good_int_text cfg_x86_64 Char_s (with_format o (format_or f_general f_allow_leading_plus)) [55; 32] /\
  from_chars_int_advanced cfg_x86_64 Char_s uint8_type [55; 32] o = Ok (success [32] 7) /\
  from_chars_int_advanced cfg_x86_64 Char_s uint8_type [32; 43; 55] o =
    Ok {| r_ptr := [32; 43; 55]; r_ec := InvalidArgument; r_value := None |} /\
  from_chars_int_advanced cfg_x86_64 Char_s uint8_type [32; 43; 55]
    (with_format o (format_or (format_or f_general f_allow_leading_plus) f_skip_white_space)) = Ok (success [] 7).
Proof.
  split; [reflexivity|]. split; [reflexivity|]. split; [reflexivity|]. split; [split; vm_compute; congruence|].
  split; [split; [reflexivity|split; [reflexivity|cbn; lia]]|]. cbv zeta.
  split; [split; [repeat constructor; vm_compute; discriminate|discriminate]|].
  repeat split; vm_compute; reflexivity.
Qed.
