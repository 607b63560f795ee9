(** Integer parsing: what from_chars does on every text. *)
From Verif Require Import Machine Config Tables Chars ParseNumber FromChars Ints WordLemmas SpecGrammar Swar Scan
  SpecApi ParseSpec Special SpecInt IntSpec IntFast.
Open Scope Z_scope.

Lemma unnoticed_large base limit v : 2 <= base <= 36 -> unnoticed base limit v -> 2 ^ 58 < limit.
Proof.
  intros B (k & K & (U1 & U2) & U3 & U4).
  assert (base ^ k = base * base ^ (k - 1)) by (rewrite <- Z.pow_succ_r by lia; f_equal; lia). nia.
Qed.

Definition zeros (z : list Z) : Prop := Forall (fun ch => ch = 48) z.

Lemma skip_zeros_spec s : exists z, zeros z /\ s = z ++ int_skip_zeros s /\ not_at (fun ch => ch = 48) (int_skip_zeros s).
Proof.
  induction s as [|ch s IH]; [exists []; repeat split; constructor|]. cbn [int_skip_zeros].
  destruct (Z.eqb_spec ch 48) as [->|N].
  - destruct IH as (z & A & E & NZ). exists (48 :: z). split; [constructor; auto|]. split; [cbn [app]; f_equal; exact E|exact NZ].
  - exists []. split; [constructor|]. split; [reflexivity|exact N].
Qed.

Lemma zeros_digits base z : 2 <= base -> zeros z -> Forall (base_digit base) z.
Proof. intros B Z0. eapply Forall_impl; [|exact Z0]. cbn. intros ch ->. exists 0. split; [reflexivity|lia]. Qed.
Lemma zeros_value base z l : zeros z -> base_value base (z ++ l) = base_value base l.
Proof.
  intros Z0. induction Z0 as [|ch z H Z0 IH]; [reflexivity|]. subst ch. cbn [app]. rewrite base_value_cons, IH.
  change (dv 48) with 0. lia.
Qed.

(** What the code does after the sign. *)
Lemma digits_main c u T o neg first s1 ds rest : int_type T -> (neg = true -> i_signed T = true) ->
  2 <= o_base o <= 36 -> Forall (code_unit u) s1 -> base_run (o_base o) s1 ds rest ->
  let V := base_value (o_base o) ds in
  let L := int_limit (i_signed T) (i_bits T) neg in
  let r :=
    (let start_num := s1 in
    let p := int_skip_zeros s1 in
    let has_leading_zeros := remaining p <? remaining start_num in
    if i_is_u8 T && (uc_size u =? 1) && (o_base o =? 10) then
      parse_u8 c u has_leading_zeros first p
    else
      let* r := (if i_is_u16 T && (uc_size u =? 1) && (o_base o =? 10)
                 then parse_u16 c u has_leading_zeros first p else Ok None) in
      match r with
      | Some r => Ok r
      | None => parse_int_general c u T (o_base o) neg has_leading_zeros first p
      end) in
  (ds = [] /\ r = Ok {| r_ptr := first; r_ec := InvalidArgument; r_value := None |}) \/
  (ds <> [] /\
   ((V <= L /\ r = Ok (success rest (if neg then - V else V))) \/
    (L < V /\ ~ unnoticed (o_base o) L V /\ r = Ok (out_of_range rest)) \/
    (L < V /\ unnoticed (o_base o) L V /\ r = Ok (success rest (if neg then - (V mod 2 ^ 64) else V mod 2 ^ 64))))).
Proof.
  intros IT NS B C R V L r. unfold r. clear r. cbv zeta.
  destruct (skip_zeros_spec s1) as (z & Z0 & ES & NZ). set (p := int_skip_zeros s1) in *. clearbody p.
  pose proof (zeros_digits (o_base o) z ltac:(lia) Z0) as ZD.
  rewrite ES in R, C. destruct (base_run_split _ z p ds rest ZD R) as (ds' & -> & R').
  assert (CP : Forall (code_unit u) p) by (apply Forall_app in C; apply C).
  assert (NZ' : no_leading_zero ds').
  { destruct ds' as [|x ds']; [exact I|]. destruct R' as (E & _). rewrite E in NZ. exact NZ. }
  set (hz := remaining p <? remaining s1).
  assert (HZ : hz = match z with [] => false | _ => true end).
  { unfold hz, remaining. rewrite ES, app_length. destruct z; cbn [length]; [apply Z.ltb_ge|apply Z.ltb_lt]; lia. }
  clearbody hz.
  unfold V. rewrite (zeros_value _ z ds' Z0). clear V. set (V := base_value (o_base o) ds').
  destruct (limit_range T neg IT NS) as (L0 & L64 & _). fold L in L0, L64.
  (* the run without digits *)
  assert (ND : ds' = [] ->
    (z ++ ds' = [] /\ no_digits hz first rest = {| r_ptr := first; r_ec := InvalidArgument; r_value := None |}) \/
    (z ++ ds' <> [] /\ no_digits hz first rest = success rest (if neg then - V else V) /\ V <= L)).
  { intros ->. rewrite app_nil_r. rewrite HZ. destruct z as [|x z]; [left; split; reflexivity|right].
    split; [discriminate|]. split; [|unfold V; cbn; lia]. unfold V. cbn. destruct neg; reflexivity. }
  assert (NE : ds' <> [] -> z ++ ds' <> []).
  { intros H E. apply app_eq_nil in E. apply H, E. }
  assert (GEN : forall r, r = parse_int_general c u T (o_base o) neg hz first p ->
    (z ++ ds' = [] /\ r = Ok {| r_ptr := first; r_ec := InvalidArgument; r_value := None |}) \/
    (z ++ ds' <> [] /\
     ((V <= L /\ r = Ok (success rest (if neg then - V else V))) \/
      (L < V /\ ~ unnoticed (o_base o) L V /\ r = Ok (out_of_range rest)) \/
      (L < V /\ unnoticed (o_base o) L V /\ r = Ok (success rest (if neg then - (V mod 2 ^ 64) else V mod 2 ^ 64)))))).
  { intros r ->. destruct (general_spec c u T (o_base o) neg hz first p ds' rest IT NS B CP R' NZ') as [(E & ->)|(N & D)].
    - destruct (ND E) as [(E1 & ->)|(E1 & -> & E2)]; [left; auto|right; auto].
    - right. split; [apply NE; exact N|exact D]. }
  destruct (i_is_u8 T && (uc_size u =? 1) && (o_base o =? 10)) eqn:F8.
  { rewrite !andb_true_iff, !Z.eqb_eq in F8. destruct F8 as ((I8 & U1) & B10). destruct IT as (_ & I8' & _). destruct (I8' I8) as (S8 & B8).
    assert (NEG : neg = false) by (destruct neg; [specialize (NS eq_refl); congruence|reflexivity]).
    assert (EL : L = 255) by (unfold L, int_limit; rewrite S8, B8; reflexivity).
    assert (NU : ~ unnoticed (o_base o) L V) by (intros H; apply unnoticed_large in H; [rewrite EL in H; lia|exact B]).
    rewrite B10 in R'. apply run_ten in R'.
    assert (EV : V = base_value 10 ds') by (unfold V; rewrite B10; reflexivity).
    destruct (u8_spec c u hz first p ds' rest U1 CP R' NZ') as [(E & ->)|(N & [(H & ->)|(H & ->)])].
    - destruct (ND E) as [(E1 & ->)|(E1 & -> & E2)]; [left; auto|right; auto].
    - right. split; [apply NE; exact N|]. left. rewrite NEG, EL, EV. auto.
    - right. split; [apply NE; exact N|]. right. left. split; [rewrite EL, EV; exact H|]. auto. }
  clear F8.
  destruct (i_is_u16 T && (uc_size u =? 1) && (o_base o =? 10)) eqn:F16; [|cbn [bind]; apply GEN; reflexivity].
  rewrite !andb_true_iff, !Z.eqb_eq in F16. destruct F16 as ((I16 & U1) & B10).
  pose proof IT as (_ & _ & I16' & _). destruct (I16' I16) as (S16 & B16).
  assert (NEG : neg = false) by (destruct neg; [specialize (NS eq_refl); congruence|reflexivity]).
  assert (EL : L = 65535) by (unfold L, int_limit; rewrite S16, B16; reflexivity).
  assert (NU : ~ unnoticed (o_base o) L V) by (intros H; apply unnoticed_large in H; [rewrite EL in H; lia|exact B]).
  pose proof R' as R2. rewrite B10 in R2. apply run_ten in R2.
  assert (EV : V = base_value 10 ds') by (unfold V; rewrite B10; reflexivity).
  destruct (u16_spec c u hz first p ds' rest U1 CP R2 NZ') as [-> |[(E & ->)|(N & [(H & ->)|(H & ->)])]]; cbn [bind].
  - apply GEN. reflexivity.
  - destruct (ND E) as [(E1 & ->)|(E1 & -> & E2)]; [left; auto|right; auto].
  - right. split; [apply NE; exact N|]. left. rewrite NEG, EL, EV. auto.
  - right. split; [apply NE; exact N|]. right. left. split; [rewrite EL, EV; exact H|]. auto.
Qed.

Lemma skip_space_int c u o s s0 : good_int_text c u o s -> starts_at c o s s0 ->
  (if flag (adjust_for_feature_macros c (o_format o)) f_skip_white_space then skip_ws s else Ok s) = Ok s0 /\ Forall (code_unit u) s0.
Proof.
  intros (C & W) SA. destruct (flag_adjust c o) as (_ & _ & _ & _ & _ & FS & _). cbv zeta in FS. rewrite FS.
  unfold starts_at in SA. destruct (skips_space c o); [|subst s0; auto].
  assert (WS : Forall ws_ok s).
  { destruct (match u with Wchar_s32 => true | _ => false end) eqn:EU.
    - apply W; [destruct u; congruence|reflexivity].
    - assert (NW : u <> Wchar_s32) by (intros ->; discriminate EU).
      eapply Forall_impl; [|exact C]. intros ch H. apply (ws_ok_type u ch); [split; [exact H|contradiction]|exact NW]. }
  destruct (skip_ws_spec s WS) as (s' & E & WO). rewrite E. rewrite (without_spaces_unique s s0 s' SA WO).
  split; [reflexivity|]. destruct WO as (w & -> & _). apply Forall_app in C. apply C.
Qed.

Theorem int_main_at c u T o s s0 neg ds rest : int_type T ->
  (if flag (adjust_for_feature_macros c (o_format o)) f_skip_white_space then skip_ws s else Ok s) = Ok s0 ->
  Forall (code_unit u) s0 ->
  2 <= o_base o <= 36 -> int_text (i_signed T) (leading_plus (rules_of c o)) (o_base o) s0 neg ds rest ->
  let V := base_value (o_base o) ds in
  let L := int_limit (i_signed T) (i_bits T) neg in
  let r := from_chars_int_advanced c u T s o in
  (neg = true -> i_signed T = true) /\
  ((ds = [] /\ r = Ok {| r_ptr := s0; r_ec := InvalidArgument; r_value := None |}) \/
   (ds <> [] /\
    ((V <= L /\ r = Ok (success rest (if neg then - V else V))) \/
     (L < V /\ ~ unnoticed (o_base o) L V /\ r = Ok (out_of_range rest)) \/
     (L < V /\ unnoticed (o_base o) L V /\ r = Ok (success rest (if neg then - (V mod 2 ^ 64) else V mod 2 ^ 64)))))).
Proof.
  intros IT E C0 B (s1 & SG & R) V L r.
  assert (NS : neg = true -> i_signed T = true) by (inversion SG; congruence).
  split; [exact NS|].
  unfold r, from_chars_int_advanced. clear r. cbv zeta. rewrite E. cbn [bind]. clear E s.
  destruct (flag_adjust c o) as (FP & _). cbv zeta in FP. set (pl := leading_plus (rules_of c o)) in *.
  assert (BT : (o_base o <? 2) || (36 <? o_base o) = false) by (apply orb_false_iff; split; apply Z.ltb_ge; lia).
  destruct s0 as [|ch s0].
  { left. split; [|reflexivity]. inversion SG; subst. destruct R as (E & _). destruct ds; [reflexivity|discriminate E]. }
  rewrite BT. unfold parse_int_string. cbn [deref bind tl]. cbv zeta. rewrite FP. clear FP BT.
  assert (ND : forall x l r, base_run (o_base o) (x :: l) ds r -> digit_of x = None -> ds = []).
  { intros x l r (E & D & _) N. destruct ds as [|y ds]; [reflexivity|]. injection E as <- E. inversion D as [|? ? (d & Hd & _) _]. congruence. }
  inversion SG as [? HM|? HP|? H]; subst.
  - (* minus *) change (45 =? 45) with true. 
    replace (negb (i_signed T)) with false by (rewrite (NS eq_refl); reflexivity). cbn [negb andb orb].
    apply (digits_main c u T o true); try assumption. inversion C0; assumption.
  - (* plus *) change (43 =? 45) with false. rewrite HP. change (43 =? 43) with true. rewrite andb_false_r. cbn [orb andb].
    apply (digits_main c u T o false); try assumption. inversion C0; assumption.
  - cbn in H. destruct (Z.eqb_spec ch 45) as [->|N45].
    + assert (SF : i_signed T = false) by (destruct (i_signed T); [exfalso; apply H; auto|reflexivity]). rewrite SF. cbn [negb andb].
      left. split; [|reflexivity]. eapply ND; [exact R|reflexivity].
    + rewrite andb_false_r. cbn [orb].
      destruct (pl && (ch =? 43)) eqn:P.
      * exfalso. apply andb_true_iff in P. rewrite Z.eqb_eq in P. apply H. right. tauto.
      * apply (digits_main c u T o false); assumption.
Qed.

Theorem int_main c u T o s s0 neg ds rest : int_type T -> good_int_text c u o s -> starts_at c o s s0 ->
  2 <= o_base o <= 36 -> int_text (i_signed T) (leading_plus (rules_of c o)) (o_base o) s0 neg ds rest ->
  let V := base_value (o_base o) ds in
  let L := int_limit (i_signed T) (i_bits T) neg in
  let r := from_chars_int_advanced c u T s o in
  (neg = true -> i_signed T = true) /\
  ((ds = [] /\ r = Ok {| r_ptr := s0; r_ec := InvalidArgument; r_value := None |}) \/
   (ds <> [] /\
    ((V <= L /\ r = Ok (success rest (if neg then - V else V))) \/
     (L < V /\ ~ unnoticed (o_base o) L V /\ r = Ok (out_of_range rest)) \/
     (L < V /\ unnoticed (o_base o) L V /\ r = Ok (success rest (if neg then - (V mod 2 ^ 64) else V mod 2 ^ 64)))))).
Proof.
  intros IT G SA. destruct (skip_space_int c u o s s0 G SA) as (E & C0). apply int_main_at; assumption.
Qed.

(** Every text is a sign (if any) and some digits (possibly none). *)
Lemma int_text_exists signed_type plus base s : 2 <= base <= 36 -> exists neg ds rest, int_text signed_type plus base s neg ds rest.
Proof.
  intros B.
  assert (RE : forall s, exists ds rest, base_run base s ds rest).
  { clear s. induction s as [|ch s (ds & rest & E & D & N)]; [exists [], []; repeat split; constructor|].
    destruct (match digit_of ch with Some d => d | None => 255 end <? base) eqn:T.
    - apply base_digit_test in T; [|exact B]. exists (ch :: ds), rest. rewrite E. repeat split; [constructor; assumption|exact N].
    - exists [], (ch :: s). repeat split; [constructor|]. cbn. rewrite <- (base_digit_test base ch B). congruence. }
  assert (SE : exists neg s1, int_sign signed_type plus s neg s1).
  { destruct s as [|ch s]; [exists false, []; apply int_unsigned; exact I|].
    destruct (Z.eq_dec ch 45) as [->|N45]; [destruct signed_type eqn:ST|destruct (Z.eq_dec ch 43) as [->|N43]; [destruct plus eqn:PL|]].
    - exists true, s. apply int_minus. reflexivity.
    - exists false, (45 :: s). apply int_unsigned. cbn. intros [(_ & H)|(H & _)]; discriminate H.
    - exists false, s. apply int_plus. reflexivity.
    - exists false, (43 :: s). apply int_unsigned. cbn. intros [(H & _)|(_ & H)]; [discriminate H|discriminate H].
    - exists false, (ch :: s). apply int_unsigned. cbn. intros [(H & _)|(H & _)]; congruence. }
  destruct SE as (neg & s1 & SG). destruct (RE s1) as (ds & rest & R). exists neg, ds, rest, s1. auto.
Qed.
