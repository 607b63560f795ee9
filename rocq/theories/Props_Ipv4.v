(** Property C59: the IPv4 reader built on from_chars (tests/ipv4_test.cpp). *)
From Verif Require Import Machine Config Chars ParseNumber Ints FromChars Ipv4 SpecGrammar SpecInt SpecApi SpecIntApi
  SpecIpv4 SpecPrint IntApi WordLemmas Props_Grammar Props_Pow10 Props_Ints Props_Print Props_Relations.
Open Scope Z_scope.

Definition octet_options : options := {| o_format := f_general; o_decimal_point := 46; o_base := 10 |}.

Lemma octet_type_ok : int_type octet_type.
Proof. repeat split; cbn; intuition discriminate. Qed.

(** What one call does. *)
Lemma octet_call c u s : macro_skip_ws c = false -> macro_leading_plus c = false -> Forall (code_unit u) s ->
  exists ds rest, s = ds ++ rest /\ Forall (base_digit 10) ds /\ not_at (base_digit 10) rest /\
   ((exists v, octet ds v /\ from_chars_int c u octet_type s 10 = Ok {| r_ptr := rest; r_ec := Success; r_value := Some v |}) \/
    ((forall v, ~ octet ds v) /\ exists r, from_chars_int c u octet_type s 10 = Ok r /\ r_ec r <> Success)).
Proof.
  intros MS MP C.
  destruct (int_text_exists false false 10 s ltac:(lia)) as (neg & ds & rest & TX).
  assert (G : good_int_text c u octet_options s).
  { split; [exact C|]. unfold skips_space. rewrite MS. discriminate. }
  assert (SA : starts_at c octet_options s s) by (unfold starts_at, skips_space; rewrite MS; reflexivity).
  assert (TX' : int_text (i_signed octet_type) (leading_plus (rules_of c octet_options)) (o_base octet_options) s neg ds rest).
  { cbn [rules_of leading_plus]. rewrite MP. exact TX. }
  destruct (int_main c u octet_type octet_options s s neg ds rest octet_type_ok G SA ltac:(cbn; lia) TX') as (NS & H).
  assert (neg = false) by (destruct neg; [discriminate (NS eq_refl)|reflexivity]). subst neg. cbn [i_signed octet_type] in *.
  destruct TX as (s1 & SG & (E & D & N)).
  assert (S1 : s1 = s) by (inversion SG; try discriminate; reflexivity). clear SG. rewrite S1 in E. clear S1.
  exists ds, rest. split; [exact E|]. split; [exact D|]. split; [exact N|].
  change (from_chars_int c u octet_type s 10) with (from_chars_int_advanced c u octet_type s octet_options).
  change (o_base octet_options) with 10 in H. change (int_limit false (i_bits octet_type) false) with 255 in H. cbv zeta in H.
  destruct H as [(-> & H)|(NE & [(L & H)|[(L & _ & H)|(L & U & H)]])].
  - right. split; [intros v (X & _); congruence|]. eexists. split; [exact H|]. discriminate.
  - left. exists (base_value 10 ds). split; [|exact H]. repeat split; assumption.
  - right. split; [intros v (_ & _ & X & Y); lia|]. eexists. split; [exact H|]. discriminate.
  - exfalso. apply unnoticed_large in U; [|cbn; lia]. lia.
Qed.

(** The digits at the start of a text are determined by it. *)
Lemma run_unique : forall ds ds' rest rest', ds ++ rest = ds' ++ rest' ->
  Forall (base_digit 10) ds -> Forall (base_digit 10) ds' ->
  not_at (base_digit 10) rest -> not_at (base_digit 10) rest' -> ds = ds' /\ rest = rest'.
Proof.
  induction ds as [|d ds IH]; intros ds' rest rest' E D D' N N'.
  - destruct ds' as [|d' ds']; [split; [reflexivity|exact E]|exfalso].
    cbn in E. subst rest. inversion D'; subst. exact (N ltac:(assumption)).
  - destruct ds' as [|d' ds'].
    + exfalso. cbn in E. subst rest'. inversion D; subst. exact (N' ltac:(assumption)).
    + cbn in E. injection E as <- E. inversion D; subst. inversion D'; subst.
      destruct (IH ds' rest rest' E ltac:(assumption) ltac:(assumption) N N') as (-> & ->). split; reflexivity.
Qed.

Lemma dot_no_digit : ~ base_digit 10 46.
Proof. intros (d & H & _). discriminate H. Qed.

(** [n] more octets after the first one. *)
Fixpoint octets (n : nat) (s : list Z) (vs : list Z) (rest : list Z) : Prop :=
  exists ds v, octet ds v /\
  match n with
  | O => s = ds ++ rest /\ not_at (base_digit 10) rest /\ vs = [v]
  | S m => exists s' vs', s = ds ++ 46 :: s' /\ vs = v :: vs' /\ octets m s' vs' rest
  end.

Lemma digits_pos base ds : 0 <= base -> 0 <= base_value base ds.
Proof.
  intros B. unfold base_value. assert (H : forall l a, 0 <= a ->
    0 <= fold_left (fun a ch => a * base + match digit_of ch with Some d => d | None => 0 end) l a).
  { induction l as [|ch l IH]; intros a A; [exact A|]. cbn [fold_left]. apply IH.
    assert (0 <= match digit_of ch with Some d => d | None => 0 end); [|nia].
    unfold digit_of. repeat match goal with |- context [if ?x then _ else _] => destruct x eqn:?; cbn [andb] in * end;
      rewrite ?andb_true_iff, ?Z.leb_le in *; lia. }
  apply H. lia.
Qed.

Lemma octet_range ds v : octet ds v -> 0 <= v <= 255.
Proof. intros (_ & _ & <- & L). split; [apply digits_pos; lia|exact L]. Qed.

Definition push (ip v : Z) : Z := Z.lor (u32 (Z.shiftl ip 8)) v.

Lemma push_eq ip v : 0 <= v <= 255 -> push ip v = (ip * 2 ^ 8 + v) mod 2 ^ 32.
Proof.
  intros V. unfold push, u32. rewrite Z.shiftl_mul_pow2 by lia.
  change (2 ^ 32) with (2 ^ 24 * 2 ^ 8). rewrite Z.mul_mod_distr_r by discriminate.
  rewrite Z.lor_comm, lor_add_disjoint by lia.
  apply Z.mod_unique with (q := ip / 2 ^ 24).
  - left. pose proof (Z.mod_pos_bound ip (2 ^ 24) ltac:(lia)). lia.
  - rewrite (Z.div_mod ip (2 ^ 24)) at 1 by discriminate. ring.
Qed.

Lemma loop_spec c u : macro_skip_ws c = false -> macro_leading_plus c = false ->
  forall n s ip, Forall (code_unit u) s ->
  (exists vs rest, octets n s vs rest /\ ipv4_loop c u n s ip = Ok (Some (fold_left push vs ip))) \/
  ((forall vs rest, ~ octets n s vs rest) /\ ipv4_loop c u n s ip = Ok None).
Proof.
  intros MS MP. induction n as [|n IH]; intros s ip C;
    destruct (octet_call c u s MS MP C) as (ds & rest & E & D & N & [(v & O & CALL)|(NO & (r & CALL & EC))]).
  - left. exists [v], rest. split; [exists ds, v; split; [exact O|]; split; [exact E|]; split; [exact N|reflexivity]|].
    cbn [ipv4_loop]. rewrite CALL. reflexivity.
  - right. split.
    + intros vs rest' (ds' & v' & O' & E' & N' & _).
      destruct (run_unique ds ds' rest rest') as (<- & _); try assumption; [congruence|apply O'|]. exact (NO v' O').
    + cbn [ipv4_loop]. rewrite CALL. cbn [bind]. destruct (r_ec r); [congruence|reflexivity|reflexivity].
  - destruct rest as [|ch s'].
    + right. split.
      * intros vs rest' (ds' & v' & O' & s2 & vs' & E' & _).
        destruct (run_unique ds ds' [] (46 :: s2)) as (_ & X); try assumption; [congruence|apply O'|exact dot_no_digit|discriminate X].
      * cbn [ipv4_loop]. rewrite CALL. reflexivity.
    + destruct (Z.eq_dec ch 46) as [->|NE].
      * assert (C' : Forall (code_unit u) s').
        { rewrite E in C. apply Forall_app in C. destruct C as (_ & C). inversion C. assumption. }
        destruct (IH s' (push ip v) C') as [(vs & rest' & Q & L)|(NQ & L)].
        -- left. exists (v :: vs), rest'. split; [exists ds, v; split; [exact O|]; exists s', vs; auto|].
           cbn [ipv4_loop]. rewrite CALL. cbn [bind r_ec r_ptr r_value fold_left]. exact L.
        -- right. split; [|cbn [ipv4_loop]; rewrite CALL; cbn [bind r_ec r_ptr r_value]; exact L].
           intros vs rest' (ds' & v' & O' & s2 & vs' & E' & _ & Q').
           destruct (run_unique ds ds' (46 :: s') (46 :: s2)) as (_ & X); try assumption; [congruence|apply O'|].
           injection X as <-. exact (NQ _ _ Q').
      * right. split.
        -- intros vs rest' (ds' & v' & O' & s2 & vs' & E' & _).
           destruct (run_unique ds ds' (ch :: s') (46 :: s2)) as (_ & X); try assumption; [congruence|apply O'|exact dot_no_digit|].
           injection X as X _. exact (NE X).
        -- cbn [ipv4_loop]. rewrite CALL. cbn [bind r_ec r_ptr r_value]. destruct (Z.eqb_spec ch 46); [contradiction|reflexivity].
  - right. split.
    + intros vs rest' (ds' & v' & O' & s2 & vs' & E' & _).
      destruct (run_unique ds ds' rest (46 :: s2)) as (<- & _); try assumption; [congruence|apply O'|exact dot_no_digit|]. exact (NO v' O').
    + cbn [ipv4_loop]. rewrite CALL. cbn [bind]. destruct (r_ec r); [congruence|reflexivity|reflexivity].
Qed.

Lemma quad_octets s rest vs : octets 3 s vs rest <-> exists a b c d, vs = [a; b; c; d] /\ dotted_quad s a b c d rest.
Proof.
  split.
  - intros (da & a & OA & s1 & v1 & -> & -> & db & b & OB & s2 & v2 & -> & -> & dc & c & OC & s3 & v3 & -> & -> & dd & d & OD & -> & N & ->).
    exists a, b, c, d. split; [reflexivity|]. exists da, db, dc, dd. repeat (split; [first [reflexivity|assumption]|]). exact N.
  - intros (a & b & c & d & -> & da & db & dc & dd & -> & OA & OB & OC & OD & N).
    exists da, a. split; [exact OA|]. eexists _, _. split; [reflexivity|]. split; [reflexivity|].
    exists db, b. split; [exact OB|]. eexists _, _. split; [reflexivity|]. split; [reflexivity|].
    exists dc, c. split; [exact OC|]. eexists _, _. split; [reflexivity|]. split; [reflexivity|].
    exists dd, d. split; [exact OD|]. split; [reflexivity|]. split; [exact N|reflexivity].
Qed.

Lemma push_address a b c d : 0 <= a <= 255 -> 0 <= b <= 255 -> 0 <= c <= 255 -> 0 <= d <= 255 ->
  fold_left push [a; b; c; d] 0 = address a b c d.
Proof.
  intros A B C D. cbn [fold_left]. unfold address.
  rewrite (push_eq 0 a A), Z.mod_small by lia. rewrite (push_eq _ b B), Z.mod_small by lia.
  rewrite (push_eq _ c C), Z.mod_small by lia. rewrite (push_eq _ d D), Z.mod_small by lia. ring.
Qed.

(** C59: the reader is defined on every text and accepts exactly the texts that
    start with an address in dotted-decimal notation, with its value. *)
Theorem ipv4_reader_exact :
  forall (c : cfg) (u : uc) (s : list Z),
  macro_skip_ws c = false -> macro_leading_plus c = false -> Forall (code_unit u) s ->
  (exists a1 a2 a3 a4 rest, dotted_quad s a1 a2 a3 a4 rest /\
     ipv4_string_to_uint32 c u s = Ok (Some (address a1 a2 a3 a4))) \/
  ((forall a1 a2 a3 a4 rest, ~ dotted_quad s a1 a2 a3 a4 rest) /\
   ipv4_string_to_uint32 c u s = Ok None).
Proof.
  intros c u s MS MP C. unfold ipv4_string_to_uint32.
  destruct (loop_spec c u MS MP 3 s 0 C) as [(vs & rest & Q & E)|(NQ & E)].
  - left. apply quad_octets in Q. destruct Q as (a1 & a2 & a3 & a4 & -> & Q). exists a1, a2, a3, a4, rest. split; [exact Q|].
    rewrite E, push_address; [reflexivity|..]; destruct Q as (da & db & dc & dd & _ & O1 & O2 & O3 & O4 & _);
      eapply octet_range; eassumption.
  - right. split; [|exact E]. intros a1 a2 a3 a4 rest Q. apply (NQ [a1; a2; a3; a4] rest). apply quad_octets. eauto 6.
Qed.
Print Assumptions ipv4_reader_exact.

(** The octets of an accepted text are determined by it. *)
Lemma dotted_quad_unique s a b c d rest a' b' c' d' rest' :
  dotted_quad s a b c d rest -> dotted_quad s a' b' c' d' rest' -> a = a' /\ b = b' /\ c = c' /\ d = d' /\ rest = rest'.
Proof.
  intros (da & db & dc & dd & E & O1 & O2 & O3 & O4 & N) (da' & db' & dc' & dd' & E' & O1' & O2' & O3' & O4' & N').
  rewrite E in E'.
  destruct (run_unique _ _ _ _ E') as (<- & X); [apply O1|apply O1'|exact dot_no_digit|exact dot_no_digit|]. injection X as E1.
  destruct (run_unique _ _ _ _ E1) as (<- & X); [apply O2|apply O2'|exact dot_no_digit|exact dot_no_digit|]. injection X as E2.
  destruct (run_unique _ _ _ _ E2) as (<- & X); [apply O3|apply O3'|exact dot_no_digit|exact dot_no_digit|]. injection X as E3.
  destruct (run_unique _ _ _ _ E3) as (<- & X); [apply O4|apply O4'|exact N|exact N'|].
  destruct O1 as (_ & _ & <- & _), O2 as (_ & _ & <- & _), O3 as (_ & _ & <- & _), O4 as (_ & _ & <- & _).
  destruct O1' as (_ & _ & <- & _), O2' as (_ & _ & <- & _), O3' as (_ & _ & <- & _), O4' as (_ & _ & <- & _). auto.
Qed.

(** ** Printing *)
Definition octet_text (v : Z) : list Z := uint8_to_chars_manual [] v.

Lemma octet_text_all : forallb (fun v =>
    let ds := octet_text v in
    forallb (fun ch => (48 <=? ch) && (ch <=? 57)) ds && negb (length ds =? 0)%nat && (length ds <=? 3)%nat &&
    (base_value 10 ds =? v)) (map Z.of_nat (seq 0 256)) = true.
Proof. vm_compute. reflexivity. Qed.

Lemma octet_text_spec v : 0 <= v <= 255 -> octet (octet_text v) v /\ (length (octet_text v) <= 3)%nat /\
  Forall (fun ch => 48 <= ch <= 57) (octet_text v).
Proof.
  intros V. pose proof octet_text_all as H. rewrite forallb_forall in H.
  assert (IN : In v (map Z.of_nat (seq 0 256))) by (apply in_map_iff; exists (Z.to_nat v); split; [lia|apply in_seq; lia]).
  specialize (H v IN).
  cbv zeta in H. rewrite !andb_true_iff in H. destruct H as (((H1 & H2) & H3) & H4).
  assert (F : Forall (fun ch => 48 <= ch <= 57) (octet_text v)).
  { apply Forall_forall. intros ch I. rewrite forallb_forall in H1. specialize (H1 ch I). rewrite andb_true_iff, !Z.leb_le in H1. exact H1. }
  split; [|split; [apply Nat.leb_le, H3|exact F]]. split; [|split; [|split; [apply Z.eqb_eq, H4|lia]]].
  - intros X. rewrite X in H2. discriminate H2.
  - eapply Forall_impl; [|exact F]. intros ch R. cbv beta in R. exists (ch - 48). split; [|lia]. unfold digit_of.
    destruct (Z.leb_spec 48 ch); [|lia]. destruct (Z.leb_spec ch 57); [reflexivity|lia].
Qed.

Lemma octet_text_app buf v : uint8_to_chars_manual buf v = buf ++ octet_text v.
Proof. unfold octet_text, uint8_to_chars_manual. destruct (v =? 0); reflexivity. Qed.

Lemma c_string_app l : Forall (fun ch => ch <> 0) l -> c_string (l ++ [0]) = l.
Proof.
  induction 1 as [|ch l H _ IH]; [reflexivity|]. cbn [app c_string]. rewrite IH.
  destruct (Z.eqb_spec ch 0); [contradiction|reflexivity].
Qed.

Lemma octet_head ds v : octet ds v -> exists ch l, ds = ch :: l /\ base_digit 10 ch.
Proof. intros (NE & D & _). destruct ds as [|ch l]; [congruence|]. inversion D; subst. eauto. Qed.

Lemma digit_range ch : base_digit 10 ch -> 48 <= ch <= 57.
Proof.
  intros (d & H & L). unfold digit_of in H.
  repeat match type of H with context [if ?x then _ else _] => destruct x eqn:?; cbn [andb] in * end;
    rewrite ?andb_true_iff, ?Z.leb_le in *; try lia; try discriminate H; injection H as <-; lia.
Qed.

(** A call on a text that starts with an octet, whatever the macros. *)
Lemma octet_call_any c u ds v rest : octet ds v -> not_at (base_digit 10) rest ->
  Forall (fun ch => 0 <= ch <= 127) (ds ++ rest) ->
  from_chars_int c u octet_type (ds ++ rest) 10 = Ok {| r_ptr := rest; r_ec := Success; r_value := Some v |}.
Proof.
  intros O N A. destruct (octet_head ds v O) as (ch & l & -> & DC). pose proof (digit_range ch DC) as RC.
  pose proof (octet_range _ _ O) as RV.
  destruct O as (NE & D & BV & L). cbn [app] in *.
  assert (G : good_int_text c u octet_options (ch :: l ++ rest)).
  { split; [|intros _ _].
    - eapply Forall_impl; [|exact A]. intros x X. cbv beta in X. apply ascii_code_unit. lia.
    - eapply Forall_impl; [|exact A]. intros x X. cbv beta in X. lia. }
  assert (SA : starts_at c octet_options (ch :: l ++ rest) (ch :: l ++ rest)).
  { unfold starts_at. destruct (skips_space c octet_options); [|reflexivity].
    exists []. split; [reflexivity|]. split; [constructor|]. cbn. intros X. apply space_cases in X. lia. }
  assert (TX : int_text (i_signed octet_type) (leading_plus (rules_of c octet_options)) (o_base octet_options)
      (ch :: l ++ rest) false (ch :: l) rest).
  { exists (ch :: l ++ rest). split; [apply int_unsigned; cbn; lia|]. split; [reflexivity|]. split; [exact D|exact N]. }
  destruct (from_chars_int_exact c u octet_type octet_options (ch :: l ++ rest) (ch :: l ++ rest) false (ch :: l) rest
     octet_type_ok ltac:(cbn; lia) G SA ltac:(cbn; lia) TX NE) as (H & _).
  change (from_chars_int c u octet_type (ch :: l ++ rest) 10) with (from_chars_int_advanced c u octet_type (ch :: l ++ rest) octet_options).
  unfold int_value in H. change (o_base octet_options) with 10 in H. rewrite BV in H. apply H.
  change (0 <= v < 2 ^ 8). lia.
Qed.

(** Texts that start with an address are accepted whatever the macros. *)
Theorem ipv4_reader_accepts c u s a1 a2 a3 a4 rest : dotted_quad s a1 a2 a3 a4 rest -> Forall (fun ch => 0 <= ch <= 127) s ->
  ipv4_string_to_uint32 c u s = Ok (Some (address a1 a2 a3 a4)).
Proof.
  intros (da & db & dc & dd & -> & O1 & O2 & O3 & O4 & N) A.
  pose proof (fun l x r (H : Forall (fun ch => 0 <= ch <= 127) (l ++ x :: r)) => Forall_inv_tail (proj2 (proj1 (Forall_app _ _ _) H))) as TL.
  pose proof (TL _ _ _ A) as A1. pose proof (TL _ _ _ A1) as A2. pose proof (TL _ _ _ A2) as A3.
  assert (DOT : forall l, not_at (base_digit 10) (46 :: l)) by (intros l; exact dot_no_digit).
  unfold ipv4_string_to_uint32. cbn [ipv4_loop].
  rewrite (octet_call_any c u da a1 _ O1 (DOT _) A). cbn [bind r_ec r_ptr r_value Z.eqb Pos.eqb].
  rewrite (octet_call_any c u db a2 _ O2 (DOT _) A1). cbn [bind r_ec r_ptr r_value Z.eqb Pos.eqb].
  rewrite (octet_call_any c u dc a3 _ O3 (DOT _) A2). cbn [bind r_ec r_ptr r_value Z.eqb Pos.eqb].
  rewrite (octet_call_any c u dd a4 _ O4 N A3). cbn [bind r_ec r_ptr r_value].
  fold (push 0 a1). fold (push (push 0 a1) a2). fold (push (push (push 0 a1) a2) a3). fold (push (push (push (push 0 a1) a2) a3) a4).
  change (push (push (push (push 0 a1) a2) a3) a4) with (fold_left push [a1; a2; a3; a4] 0).
  rewrite push_address; [reflexivity|..]; eapply octet_range; eassumption.
Qed.

(** C59: for every address, the printed text fits the buffer of 16 characters,
    terminating zero included, is its dotted-decimal notation, and reading it
    gives the address back - whatever the build. *)
Theorem ipv4_round_trip :
  forall (c : cfg) (u : uc) (ip : Z), 0 <= ip < 2 ^ 32 ->
  let text := c_string (uint32_to_ipv4_string ip) in
  (length (uint32_to_ipv4_string ip) <= 16)%nat /\
  (exists a1 a2 a3 a4, dotted_quad text a1 a2 a3 a4 [] /\ address a1 a2 a3 a4 = ip) /\
  ipv4_string_to_uint32 c u text = Ok (Some ip).
Proof.
  intros c u ip R text.
  set (a1 := u8 (Z.shiftr ip 24)). set (a2 := u8 (Z.shiftr ip 16)). set (a3 := u8 (Z.shiftr ip 8)). set (a4 := u8 ip).
  assert (U8 : forall x, 0 <= u8 x <= 255) by (intros x; unfold u8; pose proof (Z.mod_pos_bound x (2 ^ 8) ltac:(lia)); lia).
  destruct (octet_text_spec a1 (U8 _)) as (O1 & L1 & F1). destruct (octet_text_spec a2 (U8 _)) as (O2 & L2 & F2).
  destruct (octet_text_spec a3 (U8 _)) as (O3 & L3 & F3). destruct (octet_text_spec a4 (U8 _)) as (O4 & L4 & F4).
  set (s := octet_text a1 ++ 46 :: octet_text a2 ++ 46 :: octet_text a3 ++ 46 :: octet_text a4 ++ []).
  assert (E : uint32_to_ipv4_string ip = s ++ [0]).
  { unfold uint32_to_ipv4_string. cbv zeta. rewrite !octet_text_app. fold a1 a2 a3 a4. unfold s. cbn [app]. rewrite app_nil_r.
    repeat (rewrite <- app_assoc; cbn [app]). reflexivity. }
  assert (FS : Forall (fun ch => 46 <= ch <= 57) s).
  { assert (W : forall l, Forall (fun ch => 48 <= ch <= 57) l -> Forall (fun ch => 46 <= ch <= 57) l)
      by (intros l; apply Forall_impl; intros; lia).
    unfold s. repeat first [apply Forall_app; split; [apply W; assumption|] | constructor; [lia|]]. constructor. }
  assert (T : text = s).
  { unfold text. rewrite E. apply c_string_app. eapply Forall_impl; [|exact FS]. intros; cbv beta in *; lia. }
  assert (AD : address a1 a2 a3 a4 = ip).
  { unfold address, a1, a2, a3, a4, u8. rewrite !Z.shiftr_div_pow2 by lia.
    change (2 ^ 24) with (2 ^ 8 * 2 ^ 8 * 2 ^ 8). change (2 ^ 16) with (2 ^ 8 * 2 ^ 8).
    rewrite <- !Z.div_div by lia. change (2 ^ 32) with 4294967296 in R. change (2 ^ 8) with 256.
    set (q1 := ip / 256). set (q2 := q1 / 256). set (q3 := q2 / 256).
    assert (B1 : ip = 256 * q1 + ip mod 256) by (apply Z.div_mod; discriminate).
    assert (B2 : q1 = 256 * q2 + q1 mod 256) by (apply Z.div_mod; discriminate).
    assert (B3 : q2 = 256 * q3 + q2 mod 256) by (apply Z.div_mod; discriminate).
    pose proof (Z.mod_pos_bound ip 256 ltac:(lia)). pose proof (Z.mod_pos_bound q1 256 ltac:(lia)).
    pose proof (Z.mod_pos_bound q2 256 ltac:(lia)). rewrite (Z.mod_small q3 256) by lia. lia. }
  assert (Q : dotted_quad s a1 a2 a3 a4 []) by (exists (octet_text a1), (octet_text a2), (octet_text a3), (octet_text a4); repeat (split; [first [reflexivity|assumption]|]); exact I).
  rewrite T. split; [|split].
  - rewrite E. unfold s. repeat (rewrite app_length; cbn [length]). lia.
  - exists a1, a2, a3, a4. split; assumption.
  - rewrite <- AD. apply (ipv4_reader_accepts c u s a1 a2 a3 a4 [] Q). eapply Forall_impl; [|exact FS]. intros; cbv beta in *; lia.
Qed.
Print Assumptions ipv4_round_trip.

(** 192.168.0.255 followed by a port; 1.2.3.256 and 1.2..4 are rejected. *)
Example ipv4_example :
  c_string (uint32_to_ipv4_string 3232235775) = [49;57;50;46;49;54;56;46;48;46;50;53;53] /\
  dotted_quad [49;57;50;46;49;54;56;46;48;46;50;53;53;58;56;48] 192 168 0 255 [58;56;48] /\
  ipv4_string_to_uint32 cfg_x86_64 Char_s [49;57;50;46;49;54;56;46;48;46;50;53;53;58;56;48] = Ok (Some 3232235775) /\
  ipv4_string_to_uint32 cfg_x86_64 Char_s [49;46;50;46;51;46;50;53;54] = Ok None /\
  ipv4_string_to_uint32 cfg_x86_64 Char_s [49;46;50;46;46;52] = Ok None.
Proof.
  split; [vm_compute; reflexivity|]. split; [|vm_compute; repeat split; reflexivity].
  assert (D : forall l, forallb (fun ch => (48 <=? ch) && (ch <=? 57)) l = true -> Forall (base_digit 10) l).
  { intros l H. apply Forall_forall. intros ch I. rewrite forallb_forall in H. specialize (H ch I). exists (ch - 48).
    unfold digit_of. rewrite H. split; [reflexivity|]. rewrite andb_true_iff, !Z.leb_le in H. lia. }
  exists [49;57;50], [49;54;56], [48], [50;53;53]. split; [reflexivity|].
  assert (O : forall l v, l <> [] -> forallb (fun ch => (48 <=? ch) && (ch <=? 57)) l = true -> base_value 10 l = v -> v <= 255 -> octet l v)
    by (intros l v H1 H2 H3 H4; repeat split; try assumption; apply D, H2).
  repeat (split; [apply O; [discriminate|reflexivity|reflexivity|lia]|]).
  intros (d & H & _). discriminate H.
Qed.

