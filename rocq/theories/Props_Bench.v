(** Property C62: the benchmark programs read back what they wrote
    (benchmarks/bench_ip.cpp, benchmarks/bench_uint16.cpp). *)
From Verif Require Import Machine Config Chars ParseNumber Ints FromChars Ipv4 Bench SpecGrammar SpecInt SpecApi SpecIntApi
  SpecIpv4 SpecPrint IntApi WordLemmas Props_Grammar Props_Pow10 Props_Ints Props_Print Props_Relations Props_Ipv4.
Open Scope Z_scope.

(** *** Printed numbers *)
Lemma to_string_spec v : 0 <= v ->
  to_string v <> [] /\ Forall (base_digit 10) (to_string v) /\ base_value 10 (to_string v) = v.
Proof. intros V. apply print_natural_spec; lia. Qed.

Lemma to_string_octet v : 0 <= v <= 255 -> octet (to_string v) v.
Proof. intros V. destruct (to_string_spec v) as (A & B & C); [lia|]. repeat split; [exact A|exact B|exact C|lia]. Qed.

Lemma to_string_ascii v : 0 <= v -> Forall (fun ch => 48 <= ch <= 57) (to_string v).
Proof.
  intros V. destruct (to_string_spec v V) as (_ & B & _). eapply Forall_impl; [|exact B]. apply digit_range.
Qed.

Lemma to_string_length_all : forallb (fun v => (length (to_string v) <=? 3)%nat) (map Z.of_nat (seq 0 256)) = true.
Proof. vm_compute. reflexivity. Qed.

Lemma to_string_length v : 0 <= v <= 255 -> (length (to_string v) <= 3)%nat.
Proof.
  intros V. pose proof to_string_length_all as H. rewrite forallb_forall in H.
  assert (IN : In v (map Z.of_nat (seq 0 256))) by (apply in_map_iff; exists (Z.to_nat v); split; [lia|apply in_seq; lia]).
  apply Nat.leb_le. exact (H v IN).
Qed.

(** ** Finding the end of an address *)
Lemma seek_dots_digits ds : Forall (fun ch => 48 <= ch <= 57) ds -> forall n rest,
  seek_dots n (ds ++ rest) = seek_dots n rest.
Proof.
  induction 1 as [|ch ds R F IH]; intros n rest; [reflexivity|].
  cbn [app seek_dots]. destruct (Z.eqb_spec ch 46); [lia|]. apply IH.
Qed.

Lemma seek_digits_run ds : Forall (fun ch => 48 <= ch <= 57) ds -> forall rest, not_at (base_digit 10) rest ->
  seek_digits (ds ++ rest) = rest.
Proof.
  induction 1 as [|ch ds R F IH]; intros rest N.
  - cbn [app]. destruct rest as [|ch rest]; [reflexivity|]. cbn [seek_digits].
    destruct ((ch <=? 57) && (48 <=? ch)) eqn:E; [exfalso|reflexivity].
    apply N. rewrite andb_true_iff, !Z.leb_le in E. exists (ch - 48). unfold digit_of.
    replace ((48 <=? ch) && (ch <=? 57)) with true; [split; [reflexivity|lia]|].
    symmetry. rewrite andb_true_iff, !Z.leb_le. lia.
  - cbn [app seek_digits]. replace ((ch <=? 57) && (48 <=? ch)) with true; [apply IH; exact N|].
    symmetry. rewrite andb_true_iff, !Z.leb_le. lia.
Qed.

(** C62: where a text starts with an address, seek_ip_end finds its end - the
    place where the reader stops too. *)
Theorem seek_ip_end_correct s a b c d rest : dotted_quad s a b c d rest -> seek_ip_end s = rest.
Proof.
  intros (da & db & dc & dd & -> & O1 & O2 & O3 & O4 & N).
  assert (W : forall ds v, octet ds v -> Forall (fun ch => 48 <= ch <= 57) ds).
  { intros ds v (_ & D & _). eapply Forall_impl; [|exact D]. apply digit_range. }
  unfold seek_ip_end.
  rewrite (seek_dots_digits da (W _ _ O1)). change (46 :: db ++ 46 :: dc ++ 46 :: dd ++ rest) with ([46] ++ (db ++ 46 :: dc ++ 46 :: dd ++ rest)).
  cbn [app seek_dots]. change (46 =? 46) with true. change (0 + 1 =? 3) with false. cbv iota.
  rewrite (seek_dots_digits db (W _ _ O2)). cbn [seek_dots]. change (46 =? 46) with true. change (0 + 1 + 1 =? 3) with false. cbv iota.
  rewrite (seek_dots_digits dc (W _ _ O3)). cbn [seek_dots]. change (46 =? 46) with true. change (0 + 1 + 1 + 1 =? 3) with true. cbv iota.
  apply seek_digits_run; [exact (W _ _ O4)|exact N].
Qed.

(** ** The lines of bench_ip.cpp *)
Definition quad_ok (x : Z * Z * Z * Z) : Prop :=
  let '(a, b, c, d) := x in 0 <= a <= 255 /\ 0 <= b <= 255 /\ 0 <= c <= 255 /\ 0 <= d <= 255.
Definition quad_address (x : Z * Z * Z * Z) : Z := let '(a, b, c, d) := x in address a b c d.
(** The characters of the address itself, without the end of the line *)
Definition quad_length (x : Z * Z * Z * Z) : Z :=
  let '(a, b, c, d) := x in
  Z.of_nat (length (to_string a) + length (to_string b) + length (to_string c) + length (to_string d)) + 3.
Definition total (l : list Z) : Z := fold_right Z.add 0 l.

Lemma padded_line a b c d : quad_ok (a, b, c, d) -> exists pad,
  padded (make_ip_line a b c d) = to_string a ++ 46 :: to_string b ++ 46 :: to_string c ++ 46 :: to_string d ++ 10 :: pad /\
  length (padded (make_ip_line a b c d)) = 16%nat /\ Forall (fun ch => 0 <= ch <= 127) pad.
Proof.
  intros (A & B & C & D).
  pose proof (to_string_length a A). pose proof (to_string_length b B).
  pose proof (to_string_length c C). pose proof (to_string_length d D).
  set (line := make_ip_line a b c d).
  assert (L : (length line <= 16)%nat) by (unfold line, make_ip_line; rewrite !app_length; cbn [length]; lia).
  exists (firstn (16 - length line) (repeat 32 16)).
  unfold padded. fold line. split; [|split].
  - rewrite firstn_app. rewrite firstn_all2 by exact L. unfold line, make_ip_line. rewrite <- !app_assoc. reflexivity.
  - rewrite firstn_length, app_length, repeat_length. lia.
  - apply Forall_forall. intros x I.
    assert (X : In x (repeat 32 16)).
    { rewrite <- (firstn_skipn (16 - length line) (repeat 32 16)). apply in_or_app. left. exact I. }
    apply repeat_spec in X. lia.
Qed.

Lemma line_quad a b c d more : quad_ok (a, b, c, d) -> exists rest,
  dotted_quad (padded (make_ip_line a b c d) ++ more) a b c d rest /\
  remaining (padded (make_ip_line a b c d) ++ more) - remaining rest = quad_length (a, b, c, d).
Proof.
  intros Q. destruct (padded_line a b c d Q) as (pad & E & L & _). destruct Q as (A & B & C & D).
  exists (10 :: pad ++ more). split.
  - exists (to_string a), (to_string b), (to_string c), (to_string d). split.
    + rewrite E. repeat (rewrite <- app_assoc; cbn [app]). reflexivity.
    + repeat (split; [apply to_string_octet; assumption|]). intros (k & K & _). discriminate K.
  - rewrite E. unfold remaining, quad_length. repeat (rewrite app_length; cbn [length]). lia.
Qed.

Lemma line_ascii a b c d : quad_ok (a, b, c, d) -> Forall (fun ch => 0 <= ch <= 127) (padded (make_ip_line a b c d)).
Proof.
  intros Q. destruct (padded_line a b c d Q) as (pad & E & _ & P). destruct Q as (A & B & C & D). rewrite E.
  assert (W : forall v, 0 <= v <= 255 -> Forall (fun ch => 0 <= ch <= 127) (to_string v)).
  { intros v V. eapply Forall_impl; [|apply to_string_ascii; lia]. intros; cbv beta in *; lia. }
  repeat first [apply Forall_app; split; [apply W; assumption|] | constructor; [lia|]]. exact P.
Qed.

Lemma buffer_ascii l : Forall quad_ok l -> Forall (fun ch => 0 <= ch <= 127) (ip_buffer l).
Proof.
  unfold ip_buffer. induction 1 as [|[[[a b] c] d] l Q _ IH]; [constructor|].
  cbn [map concat]. apply Forall_app. split; [apply line_ascii; exact Q|exact IH].
Qed.

Lemma advance_app l more : length l = 16%nat -> advance 16 (l ++ more) = Ok more.
Proof.
  intros L. do 16 (destruct l as [|? l]; [discriminate L|]). destruct l; [|discriminate L]. reflexivity.
Qed.

Lemma u32_add x y : u32 (u32 x + y) = u32 (x + y).
Proof. unfold u32. apply Zplus_mod_idemp_l. Qed.
Lemma u64_add x y : u64 (u64 x + y) = u64 (x + y).
Proof. unfold u64. apply Zplus_mod_idemp_l. Qed.
Lemma u32_add_r x y : u32 (x + u32 y) = u32 (x + y).
Proof. unfold u32. apply Zplus_mod_idemp_r. Qed.

(** C62: for every list of addresses, the loop of bench_ip.cpp reads each of
    them from its line and never aborts; the loop that only looks for the ends
    finds each end at the end of the line's address.  Every build, every
    character type. *)
Theorem bench_ip_reads_back :
  forall (c : cfg) (u : uc) (l : list (Z * Z * Z * Z)), Forall quad_ok l ->
  parse_all c u (length l) (ip_buffer l) 0 = Ok (Some (total (map quad_address l) mod 2 ^ 32)) /\
  seek_all (length l) (ip_buffer l) 0 = Ok (total (map quad_length l) mod 2 ^ 32).
Proof.
  intros c u l F.
  assert (P : forall l, Forall quad_ok l -> forall x,
    parse_all c u (length l) (ip_buffer l) (u32 x) = Ok (Some (u32 (x + total (map quad_address l))))).
  { clear l F. induction 1 as [|[[[a b] e] d] l Q F IH]; intros x.
    - cbn. rewrite Z.add_0_r. reflexivity.
    - cbn [length parse_all]. unfold ip_buffer. cbn [map concat]. fold (ip_buffer l).
      destruct (line_quad a b e d (ip_buffer l) Q) as (rest & DQ & _).
      rewrite (ipv4_reader_accepts c u _ a b e d rest DQ) by (apply Forall_app; split; [apply line_ascii; exact Q|apply buffer_ascii; exact F]).
      cbn [bind]. rewrite advance_app by (destruct (padded_line a b e d Q) as (? & _ & L & _); exact L). cbn [bind].
      rewrite u32_add, IH. cbn [total map fold_right quad_address]. unfold total. do 3 f_equal. lia. }
  assert (S : forall l, Forall quad_ok l -> forall x,
    seek_all (length l) (ip_buffer l) (u32 x) = Ok (u32 (x + total (map quad_length l)))).
  { clear l F P. induction 1 as [|[[[a b] e] d] l Q F IH]; intros x.
    - cbn. rewrite Z.add_0_r. reflexivity.
    - cbn [length seek_all]. unfold ip_buffer. cbn [map concat]. fold (ip_buffer l).
      destruct (line_quad a b e d (ip_buffer l) Q) as (rest & DQ & L).
      rewrite (seek_ip_end_correct _ a b e d rest DQ), L.
      rewrite advance_app by (destruct (padded_line a b e d Q) as (? & _ & L' & _); exact L'). cbn [bind].
      rewrite u32_add_r, u32_add, IH. cbn [total map fold_right]. unfold total. do 2 f_equal. lia. }
  split; [exact (P l F 0)|exact (S l F 0)].
Qed.

(** [p] consists of [length l] pieces of 16 characters each, and at the start of
    each of them one finds the corresponding address of [l]. *)
Fixpoint lines (p : list Z) (l : list (Z * Z * Z * Z)) : Prop :=
  match l with
  | [] => p = []
  | (a, b, c, d) :: more =>
      (exists rest, dotted_quad p a b c d rest) /\ exists line next, p = line ++ next /\ length line = 16%nat /\ lines next more
  end.

(** C62: given any text of n lines, the loop adds up the addresses found at the
    starts of the lines, and aborts if there is a line without. *)
Theorem bench_ip_exact :
  forall (c : cfg) (u : uc) (n : nat) (p : list Z),
  macro_skip_ws c = false -> macro_leading_plus c = false -> Forall (code_unit u) p ->
  length p = (16 * n)%nat ->
  (exists l, length l = n /\ lines p l /\ parse_all c u n p 0 = Ok (Some (total (map quad_address l) mod 2 ^ 32))) \/
  ((forall l, length l = n -> ~ lines p l) /\ parse_all c u n p 0 = Ok None).
Proof.
  intros c u n p MS MP C LEN.
  enough (H : forall x,
    (exists l, length l = n /\ lines p l /\ parse_all c u n p (u32 x) = Ok (Some (u32 (x + total (map quad_address l))))) \/
    ((forall l, length l = n -> ~ lines p l) /\ parse_all c u n p (u32 x) = Ok None)) by exact (H 0).
  revert p C LEN. induction n as [|n IH]; intros p C LEN x.
  - destruct p; [|discriminate LEN]. left. exists []. split; [reflexivity|]. split; [reflexivity|].
    cbn. rewrite Z.add_0_r. reflexivity.
  - cbn [parse_all].
    assert (P : exists line next, p = line ++ next /\ length line = 16%nat).
    { exists (firstn 16 p), (skipn 16 p). split; [symmetry; apply firstn_skipn|]. rewrite firstn_length. lia. }
    destruct P as (line & next & P & L).
    destruct (ipv4_reader_exact c u p MS MP C) as [(a1 & a2 & a3 & a4 & rest & Q & ->)|(NQ & ->)].
    + assert (AD : advance 16 p = Ok next) by (rewrite P; apply advance_app; exact L). cbn [bind]. rewrite AD. cbn [bind]. rewrite u32_add.
      assert (CN : Forall (code_unit u) next) by (rewrite P in C; apply Forall_app in C; apply C).
      assert (LN : length next = (16 * n)%nat) by (rewrite P, app_length in LEN; lia).
      destruct (IH next CN LN (x + address a1 a2 a3 a4)) as [(l & LL & LI & E)|(NO & E)].
      * left. exists ((a1, a2, a3, a4) :: l). split; [cbn; lia|]. split.
        -- split; [exists rest; exact Q|]. exists line, next. split; [exact P|]. split; [exact L|exact LI].
        -- rewrite E. unfold total. cbn [map fold_right quad_address]. do 3 f_equal. lia.
      * right. split; [|exact E]. intros [|[[[b1 b2] b3] b4] l] LL H; [discriminate LL|].
        destruct H as (_ & line' & next' & P' & L' & LI). injection LL as LL.
        assert (next' = next).
        { apply (f_equal (skipn 16)) in P'. rewrite P in P'. rewrite <- L in P' at 1. rewrite skipn_app, skipn_all, Nat.sub_diag in P'.
          rewrite <- L' in P'. rewrite skipn_app, skipn_all, Nat.sub_diag in P'. cbn in P'. congruence. }
        subst next'. exact (NO l LL LI).
    + cbn [bind]. right. split; [|reflexivity]. intros [|[[[b1 b2] b3] b4] l] LL H; [discriminate LL|].
      destruct H as ((rest & Q) & _). exact (NQ _ _ _ _ _ Q).
Qed.
Print Assumptions bench_ip_exact.

(** ** The values of bench_uint16.cpp *)
Lemma word_type_ok : int_type word_type.
Proof. repeat split; cbn; intuition discriminate. Qed.

Lemma word_call c u v rest : 0 <= v <= 65535 -> not_at (base_digit 10) rest ->
  Forall (fun ch => 0 <= ch <= 127) rest ->
  from_chars_int c u word_type (to_string v ++ rest) 10 = Ok {| r_ptr := rest; r_ec := Success; r_value := Some v |}.
Proof.
  intros V N A.
  assert (PI : print_integer false 10 v = to_string v) by (unfold print_integer; destruct (Z.ltb_spec v 0); [lia|reflexivity]).
  pose proof (from_chars_printed_integer c u word_type octet_options false v rest word_type_ok ltac:(cbn; lia)) as H.
  change (o_base octet_options) with 10 in H. rewrite PI in H.
  change (from_chars_int c u word_type (to_string v ++ rest) 10) with (from_chars_int_advanced c u word_type (to_string v ++ rest) octet_options).
  assert (AA : Forall (fun ch => 0 <= ch <= 127) (to_string v ++ rest)).
  { apply Forall_app. split; [|exact A]. eapply Forall_impl; [|apply to_string_ascii; lia]. intros; cbv beta in *; lia. }
  apply H; [cbn; lia| |exact N]. split; [|intros _ _].
  - eapply Forall_impl; [|exact AA]. intros x X. cbv beta in X. apply ascii_code_unit. lia.
  - eapply Forall_impl; [|exact AA]. intros x X. cbv beta in X. lia.
Qed.

Definition word_ok (v : Z) : Prop := 0 <= v <= 65535.

Lemma uint16_buffer_ascii l : Forall word_ok l -> Forall (fun ch => 0 <= ch <= 127) (uint16_buffer l).
Proof.
  induction 1 as [|v l V F IH]; [constructor|]. cbn [uint16_buffer]. unfold word_ok in V.
  apply Forall_app. split; [eapply Forall_impl; [|apply to_string_ascii; lia]; intros; cbv beta in *; lia|].
  apply Forall_app. split; [|exact IH]. destruct l; [constructor|constructor; [lia|constructor]].
Qed.

Lemma comma_no_digit l : not_at (base_digit 10) (44 :: l).
Proof. intros (k & K & _). discriminate K. Qed.

(** C62: for every list of values, the text bench_uint16.cpp writes passes its
    own validation and adds up to the same sum. *)
Theorem bench_uint16_reads_back :
  forall (c : cfg) (u : uc) (l : list Z), Forall word_ok l ->
  validate c u (uint16_buffer l) l = Ok true /\
  sum_all c u (length l) (uint16_buffer l) 0 = Ok (Some (total l mod 2 ^ 64)).
Proof.
  intros c u l F.
  assert (C : forall v l, Forall word_ok (v :: l) ->
    from_chars_int c u word_type (uint16_buffer (v :: l)) 10 =
      Ok {| r_ptr := match l with [] => [] | _ => 44 :: uint16_buffer l end; r_ec := Success; r_value := Some v |}).
  { clear l F. intros v l F. inversion F as [|? ? V F']; subst. unfold word_ok in V. cbn [uint16_buffer].
    destruct l as [|w l].
    - cbn [app uint16_buffer]. apply word_call; [exact V|exact I|constructor].
    - change ([44] ++ uint16_buffer (w :: l)) with (44 :: uint16_buffer (w :: l)).
      apply word_call; [exact V|apply comma_no_digit|]. constructor; [lia|]. apply uint16_buffer_ascii. exact F'. }
  assert (V : forall l, Forall word_ok l -> validate c u (uint16_buffer l) l = Ok true).
  { clear l F. induction l as [|v l IH]; intros F; [reflexivity|].
    cbn [validate]. rewrite (C v l F). cbn [bind r_ec r_value r_ptr]. rewrite Z.eqb_refl. cbn [negb].
    inversion F; subst. destruct l as [|w l]; [apply IH; assumption|]. change (44 =? 44) with true. cbv iota. apply IH. assumption. }
  assert (S : forall l, Forall word_ok l -> forall x,
    sum_all c u (length l) (uint16_buffer l) (u64 x) = Ok (Some (u64 (x + total l)))).
  { clear l F V. induction l as [|v l IH]; intros F x; [cbn; rewrite Z.add_0_r; reflexivity|].
    cbn [length sum_all]. rewrite (C v l F). cbn [bind r_ec r_value r_ptr]. rewrite u64_add.
    replace (x + total (v :: l)) with (x + v + total l) by (cbn [total fold_right]; unfold total; lia).
    inversion F; subst. destruct l as [|w l]; [exact (IH ltac:(assumption) (x + v))|].
    cbn [length]. change (44 =? 44) with true. cbv iota. exact (IH ltac:(assumption) (x + v)). }
  split; [exact (V l F)|exact (S l F 0)].
Qed.

(** What one call does, when the macros that allow more are off. *)
Definition word (ds : list Z) (v : Z) : Prop :=
  ds <> [] /\ Forall (base_digit 10) ds /\ base_value 10 ds = v /\ v <= 65535.

Lemma word_call_exact c u s : macro_skip_ws c = false -> macro_leading_plus c = false -> Forall (code_unit u) s ->
  exists ds rest, s = ds ++ rest /\ Forall (base_digit 10) ds /\ not_at (base_digit 10) rest /\
   ((exists v, word ds v /\ from_chars_int c u word_type s 10 = Ok {| r_ptr := rest; r_ec := Success; r_value := Some v |}) \/
    ((forall v, ~ word ds v) /\ exists r, from_chars_int c u word_type s 10 = Ok r /\ r_ec r <> Success)).
Proof.
  intros MS MP C.
  destruct (int_text_exists false false 10 s ltac:(lia)) as (neg & ds & rest & TX).
  assert (G : good_int_text c u octet_options s).
  { split; [exact C|]. unfold skips_space. rewrite MS. discriminate. }
  assert (SA : starts_at c octet_options s s) by (unfold starts_at, skips_space; rewrite MS; reflexivity).
  assert (TX' : int_text (i_signed word_type) (leading_plus (rules_of c octet_options)) (o_base octet_options) s neg ds rest).
  { cbn [rules_of leading_plus]. rewrite MP. exact TX. }
  destruct (int_main c u word_type octet_options s s neg ds rest word_type_ok G SA ltac:(cbn; lia) TX') as (NS & H).
  assert (neg = false) by (destruct neg; [discriminate (NS eq_refl)|reflexivity]). subst neg. cbn [i_signed word_type] in *.
  destruct TX as (s1 & SG & (E & D & N)).
  assert (S1 : s1 = s) by (inversion SG; try discriminate; reflexivity). clear SG. rewrite S1 in E. clear S1.
  exists ds, rest. split; [exact E|]. split; [exact D|]. split; [exact N|].
  change (from_chars_int c u word_type s 10) with (from_chars_int_advanced c u word_type s octet_options).
  change (o_base octet_options) with 10 in H. change (int_limit false (i_bits word_type) false) with 65535 in H. cbv zeta in H.
  destruct H as [(-> & H)|(NE & [(L & H)|[(L & _ & H)|(L & U & H)]])].
  - right. split; [intros v (X & _); congruence|]. eexists. split; [exact H|]. discriminate.
  - left. exists (base_value 10 ds). split; [|exact H]. repeat split; assumption.
  - right. split; [intros v (_ & _ & X & Y); lia|]. eexists. split; [exact H|]. discriminate.
  - exfalso. apply unnoticed_large in U; [|cbn; lia]. lia.
Qed.

(** [p] spells the values of [l]: decimal numbers (leading zeros allowed)
    separated by single commas, and nothing else. *)
Fixpoint spells (p : list Z) (l : list Z) : Prop :=
  match l with
  | [] => p = []
  | v :: more =>
      exists ds rest, word ds v /\ p = ds ++ rest /\
      match more with [] => rest = [] | _ => exists next, rest = 44 :: next /\ spells next more end
  end.

(** C62: validation passes exactly for the texts that spell the expected values;
    for all other texts the program aborts. *)
Theorem bench_uint16_validate_exact :
  forall (c : cfg) (u : uc) (p l : list Z),
  macro_skip_ws c = false -> macro_leading_plus c = false -> Forall (code_unit u) p ->
  (spells p l /\ validate c u p l = Ok true) \/ (~ spells p l /\ validate c u p l = Ok false).
Proof.
  intros c u p l MS MP. revert p. induction l as [|v l IH]; intros p C.
  - cbn [spells validate]. destruct p; [left; split; reflexivity|right; split; [discriminate|reflexivity]].
  - cbn [validate].
    destruct (word_call_exact c u p MS MP C) as (ds & rest & E & D & N & [(x & W & CALL)|(NO & (r & CALL & EC))]).
    + rewrite CALL. cbn [bind r_ec r_value r_ptr].
      assert (U : forall ds' rest', word ds' v -> p = ds' ++ rest' -> not_at (base_digit 10) rest' ->
        ds = ds' /\ rest = rest').
      { intros ds' rest' W' E' N'. rewrite E in E'. destruct W as (_ & W & _). destruct W' as (_ & W' & _).
        exact (run_unique _ _ _ _ E' W W' N N'). }
      assert (SP : spells p (v :: l) -> x = v /\ match l with [] => rest = [] | _ => exists next, rest = 44 :: next /\ spells next l end).
      { intros (ds' & rest' & W' & E' & M).
        assert (N' : not_at (base_digit 10) rest').
        { destruct l; [rewrite M; exact I|]. destruct M as (next & -> & _). apply comma_no_digit. }
        destruct (U ds' rest' W' E' N') as (<- & <-). split; [|exact M].
        destruct W as (_ & _ & <- & _). destruct W' as (_ & _ & <- & _). reflexivity. }
      assert (CR : Forall (code_unit u) rest) by (rewrite E in C; apply Forall_app in C; apply C).
      destruct (Z.eqb_spec x v) as [->|NE]; cbn [negb].
      * destruct l as [|w l].
        -- cbn [validate]. destruct rest as [|ch rest].
           ++ left. split; [|reflexivity]. exists ds, []. split; [exact W|]. split; [exact E|reflexivity].
           ++ right. split; [|reflexivity]. intros S. destruct (SP S) as (_ & X). discriminate X.
        -- destruct rest as [|ch rest].
           ++ right. split; [|reflexivity]. intros S. destruct (SP S) as (_ & next & X & _). discriminate X.
           ++ destruct (Z.eqb_spec ch 44) as [->|NC].
              ** destruct (IH rest (Forall_inv_tail CR)) as [(S & V)|(S & V)].
                 --- left. split; [|exact V]. exists ds, (44 :: rest). split; [exact W|]. split; [exact E|].
                     exists rest. split; [reflexivity|exact S].
                 --- right. split; [|exact V]. intros S'. apply S. destruct (SP S') as (_ & next & X & Y).
                     injection X as <-. exact Y.
              ** right. split; [|reflexivity]. intros S. destruct (SP S) as (_ & next & X & _). congruence.
      * right. split; [|reflexivity]. intros S. apply NE. apply SP. exact S.
    + rewrite CALL. cbn [bind]. right. split.
      * intros (ds' & rest' & W' & E' & M).
        assert (N' : not_at (base_digit 10) rest').
        { destruct l; [rewrite M; exact I|]. destruct M as (next & -> & _). apply comma_no_digit. }
        pose proof W' as (_ & W2 & _). rewrite E in E'.
        destruct (run_unique _ _ _ _ E' D W2 N N') as (-> & ->). exact (NO v W').
      * destruct (r_ec r); [congruence|reflexivity|reflexivity].
Qed.
Print Assumptions bench_uint16_validate_exact.

(** C62: the summing loop, told to expect n values, computes the sum of the
    values the text spells, and aborts if the text does not spell n values. *)
Theorem bench_uint16_sum_exact :
  forall (c : cfg) (u : uc) (n : nat) (p : list Z),
  macro_skip_ws c = false -> macro_leading_plus c = false -> Forall (code_unit u) p ->
  (exists l, length l = n /\ spells p l /\ sum_all c u n p 0 = Ok (Some (total l mod 2 ^ 64))) \/
  ((forall l, length l = n -> ~ spells p l) /\ sum_all c u n p 0 = Ok None).
Proof.
  intros c u n p MS MP C.
  enough (H : forall x, (exists l, length l = n /\ spells p l /\ sum_all c u n p (u64 x) = Ok (Some (u64 (x + total l)))) \/
    ((forall l, length l = n -> ~ spells p l) /\ sum_all c u n p (u64 x) = Ok None)) by exact (H 0).
  revert p C. induction n as [|n IH]; intros p C x.
  - destruct p as [|ch p].
    + left. exists []. split; [reflexivity|]. split; [reflexivity|]. cbn. rewrite Z.add_0_r. reflexivity.
    + right. split; [|reflexivity]. intros [|v l] L; [discriminate|discriminate L].
  - cbn [sum_all].
    destruct (word_call_exact c u p MS MP C) as (ds & rest & E & D & N & [(v & W & CALL)|(NO & (r & CALL & EC))]).
    + rewrite CALL. cbn [bind r_ec r_value r_ptr]. rewrite u64_add.
      assert (CR : Forall (code_unit u) rest) by (rewrite E in C; apply Forall_app in C; apply C).
      assert (SP : forall w l, spells p (w :: l) ->
        w = v /\ match l with [] => rest = [] | _ => exists next, rest = 44 :: next /\ spells next l end).
      { intros w l (ds' & rest' & W' & E' & M).
        assert (N' : not_at (base_digit 10) rest').
        { destruct l; [rewrite M; exact I|]. destruct M as (next & -> & _). apply comma_no_digit. }
        rewrite E in E'. destruct W as (_ & W1 & <- & _). destruct W' as (_ & W2 & <- & _).
        destruct (run_unique _ _ _ _ E' W1 W2 N N') as (<- & <-). split; [reflexivity|exact M]. }
      destruct n as [|n].
      * cbn [sum_all]. destruct rest as [|ch rest].
        -- left. exists [v]. split; [reflexivity|]. split.
           ++ exists ds, []. split; [exact W|]. split; [exact E|reflexivity].
           ++ cbn [total fold_right]. rewrite Z.add_0_r. reflexivity.
        -- right. split; [|reflexivity]. intros [|w l] L S; [discriminate L|]. destruct l; [|discriminate L].
           destruct (SP _ _ S) as (_ & X). discriminate X.
      * assert (NOT : (forall next, rest = 44 :: next -> forall l, length l = S n -> ~ spells next l) ->
          forall l, length l = S (S n) -> ~ spells p l).
        { intros H [|w [|w2 l]] L S; [discriminate L|discriminate L|].
          destruct (SP _ _ S) as (_ & next & X & Y). refine (H next X (w2 :: l) _ Y). cbn in L |- *. lia. }
        destruct rest as [|ch rest]; [right; split; [apply NOT; intros; discriminate|reflexivity]|].
        destruct (Z.eqb_spec ch 44) as [->|NC].
        -- destruct (IH rest (Forall_inv_tail CR) (x + v)) as [(l & L & S & V)|(S & V)].
           ++ left. exists (v :: l). split; [cbn; lia|]. split.
              ** exists ds, (44 :: rest). split; [exact W|]. split; [exact E|]. destruct l; [discriminate L|].
                 exists rest. split; [reflexivity|exact S].
              ** rewrite V. unfold total. cbn [fold_right]. do 3 f_equal. lia.
           ++ right. split; [|exact V]. apply NOT. intros next X l L. injection X as <-. exact (S l L).
        -- right. split; [|reflexivity]. apply NOT. intros next X. congruence.
    + rewrite CALL. cbn [bind]. right. split.
      * intros [|w l] L S; [discriminate L|]. destruct S as (ds' & rest' & W' & E' & M).
        assert (N' : not_at (base_digit 10) rest').
        { destruct l; [rewrite M; exact I|]. destruct M as (next & -> & _). apply comma_no_digit. }
        pose proof W' as (_ & W2 & _). rewrite E in E'.
        destruct (run_unique _ _ _ _ E' D W2 N N') as (-> & ->). exact (NO w W').
      * destruct (r_ec r); [congruence|reflexivity|reflexivity].
Qed.
Print Assumptions bench_uint16_sum_exact.
Print Assumptions bench_ip_reads_back.

(** The lines 192.168.0.255 and 1.2.3.4, and the text "7,65535,0". *)
Example bench_example :
  parse_all cfg_x86_64 Char_s 2 (ip_buffer [(192, 168, 0, 255); (1, 2, 3, 4)]) 0 = Ok (Some (3232235775 + 16909060)) /\
  seek_all 2 (ip_buffer [(192, 168, 0, 255); (1, 2, 3, 4)]) 0 = Ok 20 /\
  uint16_buffer [7; 65535; 0] = [55; 44; 54; 53; 53; 51; 53; 44; 48] /\
  validate cfg_x86_64 Char_s [55; 44; 54; 53; 53; 51; 53; 44; 48] [7; 65535; 0] = Ok true /\
  validate cfg_x86_64 Char_s [55; 44; 54; 53; 53; 51; 53; 44] [7; 65535; 0] = Ok false /\
  validate cfg_x86_64 Char_s [55; 44; 54; 53; 53; 51; 54; 44; 48] [7; 65535; 0] = Ok false.
Proof. vm_compute. repeat split; reflexivity. Qed.
