(** Properties C15-C19: integer parsing, and its share of C12, C13, C24, C25. *)
From Verif Require Defined.
From Verif Require Import Machine Config Tables Chars ParseNumber FromChars Ints WordLemmas SpecGrammar Swar Scan
  SpecApi SpecRel ParseSpec Special SpecInt IntSpec IntFast IntApi Props_Pow10.
Open Scope Z_scope.

(** Some integer types. *)
Definition uint8_type : ity := {| i_signed := false; i_bits := 8; i_is_u8 := true; i_is_u16 := false; i_is_u64 := false |}.
Definition uint16_type : ity := {| i_signed := false; i_bits := 16; i_is_u8 := false; i_is_u16 := true; i_is_u64 := false |}.
Definition uint32_type : ity := {| i_signed := false; i_bits := 32; i_is_u8 := false; i_is_u16 := false; i_is_u64 := false |}.
Definition uint64_type : ity := {| i_signed := false; i_bits := 64; i_is_u8 := false; i_is_u16 := false; i_is_u64 := true |}.
Definition int8_type : ity := {| i_signed := true; i_bits := 8; i_is_u8 := false; i_is_u16 := false; i_is_u64 := false |}.
Definition int32_type : ity := {| i_signed := true; i_bits := 32; i_is_u8 := false; i_is_u16 := false; i_is_u64 := false |}.
Definition int64_type : ity := {| i_signed := true; i_bits := 64; i_is_u8 := false; i_is_u16 := false; i_is_u64 := false |}.
Definition bool_type : ity := {| i_signed := false; i_bits := 1; i_is_u8 := false; i_is_u16 := false; i_is_u64 := false |}.
Lemma types_ok : Forall int_type [uint8_type; uint16_type; uint32_type; uint64_type; int8_type; int32_type; int64_type; bool_type].
Proof.
  repeat apply Forall_cons; try apply Forall_nil;
    (split; [cbn; tauto|]); (split; [intros H; try discriminate H; auto|]); (split; intros H; try discriminate H; auto).
Qed.

Lemma range_limit T base neg ds : int_type T -> (neg = true -> i_signed T = true) ->
  2 <= base -> Forall (base_digit base) ds ->
  (in_int_range (i_signed T) (i_bits T) (int_value base neg ds) <-> base_value base ds <= int_limit (i_signed T) (i_bits T) neg).
Proof.
  intros (B & _) NS BB D. pose proof (base_value_range base ds BB D) as (V0 & _).
  unfold in_int_range, int_limit, int_value. destruct (i_signed T).
  - assert (0 < 2 ^ (i_bits T - 1)) by (apply Z.pow_pos_nonneg; [lia|]; cbn [In] in B; lia). destruct neg; lia.
  - destruct neg; [discriminate (NS eq_refl)|]. lia.
Qed.

Lemma int_text_digits sg plus base s neg ds rest : int_text sg plus base s neg ds rest -> Forall (base_digit base) ds.
Proof. intros (s1 & _ & _ & D & _). exact D. Qed.

(** ** C15 *)

(** Types of at most 32 bits: the longest run of digits is consumed, its exact
    value is stored if the type has it, and reported as out of range otherwise
    - whatever the length of the run. *)
Theorem from_chars_int_exact :
  forall (c : cfg) (u : uc) (T : ity) (o : options) (s s0 : list Z) (neg : bool) (ds rest : list Z),
  int_type T -> i_bits T <= 32 -> good_int_text c u o s -> starts_at c o s s0 -> 2 <= o_base o <= 36 ->
  int_text (i_signed T) (leading_plus (rules_of c o)) (o_base o) s0 neg ds rest -> ds <> [] ->
  let v := int_value (o_base o) neg ds in
  (in_int_range (i_signed T) (i_bits T) v ->
     from_chars_int_advanced c u T s o = Ok {| r_ptr := rest; r_ec := Success; r_value := Some v |}) /\
  (~ in_int_range (i_signed T) (i_bits T) v ->
     from_chars_int_advanced c u T s o = Ok {| r_ptr := rest; r_ec := OutOfRange; r_value := None |}).
Proof.
  intros c u T o s s0 neg ds rest IT B32 G SA B TX NE v.
  destruct (int_main c u T o s s0 neg ds rest IT G SA B TX) as (NS & [(E & _)|(_ & H)]); [contradiction|].
  unfold v. rewrite (range_limit T (o_base o) neg ds IT NS ltac:(lia) (int_text_digits _ _ _ _ _ _ _ TX)).
  assert (L32 : int_limit (i_signed T) (i_bits T) neg <= 2 ^ 32).
  { unfold int_limit. assert (2 ^ (i_bits T - 1) <= 2 ^ 32 /\ 2 ^ i_bits T <= 2 ^ 32) by (split; apply Z.pow_le_mono_r; lia).
    destruct (i_signed T), neg; lia. }
  destruct H as [(H1 & H2)|[(H1 & _ & H2)|(H1 & U & _)]].
  - split; [intros _; exact H2|]. intros H. contradiction.
  - split; [intros H; lia|]. intros _. exact H2.
  - apply unnoticed_large in U; [|exact B]. lia.
Qed.
Print Assumptions from_chars_int_exact.

(** The hypotheses are met: 2^64 + 7 written out in base 10 does not fit an
    int, and -80000000 (base 16) does. *)
Example int_exact_example :
  int_text true false 10 [49;56;52;52;54;55;52;52;48;55;51;55;48;57;53;53;49;54;50;51;33] false
    [49;56;52;52;54;55;52;52;48;55;51;55;48;57;53;53;49;54;50;51] [33] /\
  int_value 10 false [49;56;52;52;54;55;52;52;48;55;51;55;48;57;53;53;49;54;50;51] = 2 ^ 64 + 7 /\
  int_text true false 16 [45;56;48;48;48;48;48;48;48] true [56;48;48;48;48;48;48;48] [] /\
  int_value 16 true [56;48;48;48;48;48;48;48] = - 2 ^ 31 /\
  from_chars_int cfg_x86_64 Char_s int32_type [49;56;52;52;54;55;52;52;48;55;51;55;48;57;53;53;49;54;50;51;33] 10 =
    Ok {| r_ptr := [33]; r_ec := OutOfRange; r_value := None |} /\
  from_chars_int cfg_x86_64 Char_s int32_type [45;56;48;48;48;48;48;48;48] 16 =
    Ok {| r_ptr := []; r_ec := Success; r_value := Some (- 2 ^ 31) |} /\
  from_chars_int cfg_x86_64 Char16 bool_type [49] 10 = Ok {| r_ptr := []; r_ec := Success; r_value := Some 1 |} /\
  from_chars_int cfg_x86_64 Char16 bool_type [50] 10 = Ok {| r_ptr := []; r_ec := OutOfRange; r_value := None |}.
Proof.
  assert (D : forall b l, forallb (fun ch => match digit_of ch with Some d => d <? b | None => false end) l = true -> Forall (base_digit b) l).
  { intros b l H. apply Forall_forall. intros ch I. rewrite forallb_forall in H. specialize (H ch I). unfold base_digit.
    destruct (digit_of ch) as [d|]; [|discriminate H]. exists d. split; [reflexivity|]. apply Z.ltb_lt. exact H. }
  split; [|split; [reflexivity|split; [|split; [reflexivity|vm_compute; repeat split; reflexivity]]]].
  - eexists. split; [apply int_unsigned; cbn; intros [(H & _)|(H & _)]; discriminate H|].
    split; [reflexivity|]. split; [apply D; reflexivity|]. intros (d & H & _). discriminate H.
  - eexists. split; [apply int_minus; reflexivity|].
    split; [reflexivity|]. split; [apply D; reflexivity|]. exact I.
Qed.

(** ** C16 *)

(** All types up to 64 bits: the same, except on the numbers SpecInt calls
    [unnoticed] - for which see below. *)
Theorem from_chars_int64_partial :
  forall (c : cfg) (u : uc) (T : ity) (o : options) (s s0 : list Z) (neg : bool) (ds rest : list Z),
  int_type T -> good_int_text c u o s -> starts_at c o s s0 -> 2 <= o_base o <= 36 ->
  int_text (i_signed T) (leading_plus (rules_of c o)) (o_base o) s0 neg ds rest -> ds <> [] ->
  ~ unnoticed (o_base o) (int_limit (i_signed T) (i_bits T) neg) (base_value (o_base o) ds) ->
  let v := int_value (o_base o) neg ds in
  (in_int_range (i_signed T) (i_bits T) v ->
     from_chars_int_advanced c u T s o = Ok {| r_ptr := rest; r_ec := Success; r_value := Some v |}) /\
  (~ in_int_range (i_signed T) (i_bits T) v ->
     from_chars_int_advanced c u T s o = Ok {| r_ptr := rest; r_ec := OutOfRange; r_value := None |}).
Proof.
  intros c u T o s s0 neg ds rest IT G SA B TX NE NU v.
  destruct (int_main c u T o s s0 neg ds rest IT G SA B TX) as (NS & [(E & _)|(_ & H)]); [contradiction|].
  unfold v. rewrite (range_limit T (o_base o) neg ds IT NS ltac:(lia) (int_text_digits _ _ _ _ _ _ _ TX)).
  destruct H as [(H1 & H2)|[(H1 & _ & H2)|(H1 & U & _)]].
  - split; [intros _; exact H2|]. intros H. contradiction.
  - split; [intros H; lia|]. intros _. exact H2.
  - contradiction.
Qed.
Print Assumptions from_chars_int64_partial.

(** A value that fits is always stored (in particular: no unnoticed number fits). *)
Theorem from_chars_int64_in_range :
  forall (c : cfg) (u : uc) (T : ity) (o : options) (s s0 : list Z) (neg : bool) (ds rest : list Z),
  int_type T -> good_int_text c u o s -> starts_at c o s s0 -> 2 <= o_base o <= 36 ->
  int_text (i_signed T) (leading_plus (rules_of c o)) (o_base o) s0 neg ds rest -> ds <> [] ->
  in_int_range (i_signed T) (i_bits T) (int_value (o_base o) neg ds) ->
  from_chars_int_advanced c u T s o = Ok {| r_ptr := rest; r_ec := Success; r_value := Some (int_value (o_base o) neg ds) |}.
Proof.
  intros c u T o s s0 neg ds rest IT G SA B TX NE IR.
  destruct (int_main c u T o s s0 neg ds rest IT G SA B TX) as (NS & [(E & _)|(_ & H)]); [contradiction|].
  rewrite (range_limit T (o_base o) neg ds IT NS ltac:(lia) (int_text_digits _ _ _ _ _ _ _ TX)) in IR.
  destruct H as [(H1 & H2)|[(H1 & _)|(H1 & _)]]; [exact H2|lia|lia].
Qed.
Print Assumptions from_chars_int64_in_range.

(** On the others the wrapped value is stored, with success. *)
Theorem from_chars_int64_wraps :
  forall (c : cfg) (u : uc) (T : ity) (o : options) (s s0 : list Z) (neg : bool) (ds rest : list Z),
  int_type T -> good_int_text c u o s -> starts_at c o s s0 -> 2 <= o_base o <= 36 ->
  int_text (i_signed T) (leading_plus (rules_of c o)) (o_base o) s0 neg ds rest ->
  unnoticed (o_base o) (int_limit (i_signed T) (i_bits T) neg) (base_value (o_base o) ds) ->
  ~ in_int_range (i_signed T) (i_bits T) (int_value (o_base o) neg ds) /\
  from_chars_int_advanced c u T s o = Ok {| r_ptr := rest; r_ec := Success;
    r_value := Some (if neg then - (base_value (o_base o) ds mod 2 ^ 64) else base_value (o_base o) ds mod 2 ^ 64) |}.
Proof.
  intros c u T o s s0 neg ds rest IT G SA B TX U.
  destruct (int_main c u T o s s0 neg ds rest IT G SA B TX) as (NS & [(E & _)|(_ & H)]).
  { exfalso. subst ds. destruct U as (k & _ & (_ & U) & _). cbn in U. lia. }
  rewrite (range_limit T (o_base o) neg ds IT NS ltac:(lia) (int_text_digits _ _ _ _ _ _ _ TX)).
  destruct (limit_range T neg IT NS) as (_ & LL & _).
  destruct H as [(H1 & H2)|[(H1 & NU & H2)|(H1 & _ & H2)]].
  - exfalso. destruct U as (k & _ & (_ & U) & _). lia.
  - contradiction.
  - split; [lia|exact H2].
Qed.
Print Assumptions from_chars_int64_wraps.

(** The bases in which every overflow is noticed. *)
Definition safe_bases_unsigned : list Z := [2; 4; 16].
Definition safe_bases_signed : list Z := [2; 3; 4; 9; 10; 16; 19; 23; 29; 30].

Lemma unnoticed_limit base L v : 2 <= base <= 36 -> unnoticed base L v ->
  exists k, max_digits_u64 base = Ok k /\ base ^ (k - 1) <= L /\ 2 ^ 64 < base ^ k.
Proof.
  intros B (k & K & (U1 & U2) & U3 & U4). destruct (digit_limits base B) as (k' & E1 & _ & K' & P1 & P2).
  assert (k' = k) by (apply (pow_between base (2 ^ 64)); lia). subst k'. exists k. split; [exact E1|]. lia.
Qed.

Theorem from_chars_int64_safe_bases :
  forall (c : cfg) (u : uc) (T : ity) (o : options) (s s0 : list Z) (neg : bool) (ds rest : list Z),
  int_type T -> good_int_text c u o s -> starts_at c o s s0 ->
  In (o_base o) (if i_signed T then safe_bases_signed else safe_bases_unsigned) ->
  int_text (i_signed T) (leading_plus (rules_of c o)) (o_base o) s0 neg ds rest -> ds <> [] ->
  let v := int_value (o_base o) neg ds in
  (in_int_range (i_signed T) (i_bits T) v ->
     from_chars_int_advanced c u T s o = Ok {| r_ptr := rest; r_ec := Success; r_value := Some v |}) /\
  (~ in_int_range (i_signed T) (i_bits T) v ->
     from_chars_int_advanced c u T s o = Ok {| r_ptr := rest; r_ec := OutOfRange; r_value := None |}).
Proof.
  intros c u T o s s0 neg ds rest IT G SA SB TX NE.
  assert (B : 2 <= o_base o <= 36) by (destruct (i_signed T); cbn [In safe_bases_signed safe_bases_unsigned] in SB; lia).
  apply (from_chars_int64_partial c u T o s s0 neg ds rest); try assumption. intros U.
  apply unnoticed_limit in U; [|exact B]. destruct U as (k & EK & U1 & U2).
  destruct (i_signed T) eqn:ST.
  - assert (L63 : int_limit true (i_bits T) neg <= 2 ^ 63).
    { unfold int_limit. assert (2 ^ (i_bits T - 1) <= 2 ^ 63).
      { apply Z.pow_le_mono_r; [lia|]. destruct IT as (IB & _). rewrite ST in IB. cbn [In] in IB. lia. }
      destruct neg; lia. }
    revert SB EK U1 U2 L63. generalize (int_limit true (i_bits T) neg) (o_base o). clear. intros L b SB.
    cbn [In safe_bases_signed] in SB.
    repeat (destruct SB as [<-|SB]; [intros EK; vm_compute in EK; injection EK as <-; lia|]). contradiction.
  - revert SB EK U2. generalize (o_base o). clear. intros b SB. cbn [In safe_bases_unsigned] in SB.
    repeat (destruct SB as [<-|SB]; [intros EK; vm_compute in EK; injection EK as <-; lia|]). contradiction.
Qed.
Print Assumptions from_chars_int64_safe_bases.

(** In every other base C16 fails: some text (with a minus sign for the signed
    type) overflows and yet is accepted. *)
Fixpoint text_in (fuel : nat) (base v : Z) : list Z :=
  match fuel with
  | O => []
  | S fuel => (if v <? base then [] else text_in fuel base (v / base)) ++
      [let d := v mod base in if d <? 10 then 48 + d else 97 + (d - 10)]
  end.
Definition overflowing_text (base : Z) : list Z :=
  match min_safe_u64 base with Ok m => text_in 70 base (2 ^ 64 + m) | UB => [] end.

Definition accepted_overflow (T : ity) (base : Z) : bool :=
  let s := overflowing_text base in
  (2 ^ i_bits T <=? base_value base s) &&
  forallb (fun ch => match digit_of ch with Some d => d <? base | None => false end) s &&
  match from_chars_int cfg_x86_64 Char_s T (if i_signed T then 45 :: s else s) base with
  | Ok {| r_ptr := []; r_ec := Success; r_value := Some _ |} => true
  | _ => false
  end.

Theorem from_chars_int64_refuted :
  forall (T : ity) (base : Z), (T = uint64_type \/ T = int64_type) -> 2 <= base <= 36 ->
  ~ In base (if i_signed T then safe_bases_signed else safe_bases_unsigned) ->
  exists (ds : list Z) (v : Z),
    Forall (base_digit base) ds /\ 2 ^ 64 <= base_value base ds /\
    from_chars_int cfg_x86_64 Char_s T (if i_signed T then 45 :: ds else ds) base = Ok {| r_ptr := []; r_ec := Success; r_value := Some v |}.
Proof.
  intros T base TT B NI.
  assert (A : accepted_overflow T base = true).
  { assert (I : In base (map Z.of_nat (seq 2 35))) by (apply in_map_iff; exists (Z.to_nat base); split; [lia|apply in_seq; lia]).
    destruct TT as [-> | ->]; cbn [i_signed uint64_type int64_type] in NI.
    - assert (W : forallb (fun b => existsb (Z.eqb b) safe_bases_unsigned || accepted_overflow uint64_type b) (map Z.of_nat (seq 2 35)) = true)
        by (vm_compute; reflexivity).
      rewrite forallb_forall in W. specialize (W base I). apply orb_true_iff in W. destruct W as [W|W]; [exfalso|exact W].
      apply existsb_exists in W. destruct W as (x & X1 & X2). apply Z.eqb_eq in X2. subst x. contradiction.
    - assert (W : forallb (fun b => existsb (Z.eqb b) safe_bases_signed || accepted_overflow int64_type b) (map Z.of_nat (seq 2 35)) = true)
        by (vm_compute; reflexivity).
      rewrite forallb_forall in W. specialize (W base I). apply orb_true_iff in W. destruct W as [W|W]; [exfalso|exact W].
      apply existsb_exists in W. destruct W as (x & X1 & X2). apply Z.eqb_eq in X2. subst x. contradiction. }
  unfold accepted_overflow in A. rewrite !andb_true_iff in A. destruct A as ((A1 & A2) & A3).
  destruct (from_chars_int cfg_x86_64 Char_s T (if i_signed T then 45 :: overflowing_text base else overflowing_text base) base) as [[p x ov]|] eqn:E; [|discriminate A3].
  destruct p; [|discriminate A3]. destruct x; try discriminate A3. destruct ov as [v|]; [|discriminate A3].
  exists (overflowing_text base), v. split; [|split; [|exact E]].
  - apply Forall_forall. intros ch I. rewrite forallb_forall in A2. specialize (A2 ch I). unfold base_digit.
    destruct (digit_of ch) as [d|]; [|discriminate A2]. exists d. split; [reflexivity|]. apply Z.ltb_lt. exact A2.
  - apply Z.leb_le in A1. destruct TT as [-> | ->]; exact A1.
Qed.
Print Assumptions from_chars_int64_refuted.

(** "30000000000000000000" into a uint64_t: 11553255926290448384. *)
Example uint64_base10_overflow :
  from_chars_int cfg_x86_64 Char_s uint64_type [51;48;48;48;48;48;48;48;48;48;48;48;48;48;48;48;48;48;48;48] 10 =
  Ok {| r_ptr := []; r_ec := Success; r_value := Some 11553255926290448384 |}.
Proof. vm_compute. reflexivity. Qed.

(** ** C17 *)

(** Without a digit after the sign: invalid_argument at the start. *)
Theorem from_chars_int_invalid :
  forall (c : cfg) (u : uc) (T : ity) (o : options) (s s0 : list Z) (neg : bool) (rest : list Z),
  int_type T -> good_int_text c u o s -> starts_at c o s s0 -> 2 <= o_base o <= 36 ->
  int_text (i_signed T) (leading_plus (rules_of c o)) (o_base o) s0 neg [] rest ->
  from_chars_int_advanced c u T s o = Ok {| r_ptr := s0; r_ec := InvalidArgument; r_value := None |}.
Proof.
  intros c u T o s s0 neg rest IT G SA B TX.
  destruct (int_main c u T o s s0 neg [] rest IT G SA B TX) as (_ & [(_ & E)|(N & _)]); [exact E|contradiction].
Qed.
Print Assumptions from_chars_int_invalid.

(** What an error report means: ptr at the start of the text and no digit
    there, or ptr behind the digits, of which there is at least one and whose
    value is not in the type; the destination is not written. *)
Theorem from_chars_int_errors :
  forall (c : cfg) (u : uc) (T : ity) (o : options) (s s0 p : list Z) (x : ec) (v : option Z),
  int_type T -> good_int_text c u o s -> starts_at c o s s0 -> 2 <= o_base o <= 36 ->
  from_chars_int_advanced c u T s o = Ok {| r_ptr := p; r_ec := x; r_value := v |} -> x <> Success ->
  v = None /\
  exists (neg : bool) (ds rest : list Z),
    int_text (i_signed T) (leading_plus (rules_of c o)) (o_base o) s0 neg ds rest /\
    match x with
    | InvalidArgument => ds = [] /\ p = s0
    | _ => ds <> [] /\ p = rest /\ ~ in_int_range (i_signed T) (i_bits T) (int_value (o_base o) neg ds)
    end.
Proof.
  intros c u T o s s0 p x v IT G SA B E NE.
  destruct (int_text_exists (i_signed T) (leading_plus (rules_of c o)) (o_base o) s0 B) as (neg & ds & rest & TX).
  destruct (int_main c u T o s s0 neg ds rest IT G SA B TX) as (NS & [(ED & E')|(ND & H)]).
  - rewrite E' in E. injection E as <- <- <-. split; [reflexivity|]. exists neg, ds, rest. auto.
  - destruct H as [(H1 & H2)|[(H1 & _ & H2)|(H1 & _ & H2)]]; rewrite H2 in E; injection E as <- <- <-; try congruence.
    split; [reflexivity|]. exists neg, ds, rest. split; [exact TX|]. split; [exact ND|]. split; [reflexivity|].
    rewrite (range_limit T (o_base o) neg ds IT NS ltac:(lia) (int_text_digits _ _ _ _ _ _ _ TX)). lia.
Qed.
Print Assumptions from_chars_int_errors.

(** A success report comes with a value, the digits it was read from and ptr
    behind them. *)
Theorem from_chars_int_success :
  forall (c : cfg) (u : uc) (T : ity) (o : options) (s s0 p : list Z) (v : option Z),
  int_type T -> good_int_text c u o s -> starts_at c o s s0 -> 2 <= o_base o <= 36 ->
  from_chars_int_advanced c u T s o = Ok {| r_ptr := p; r_ec := Success; r_value := v |} ->
  exists (neg : bool) (ds : list Z) (w : Z),
    int_text (i_signed T) (leading_plus (rules_of c o)) (o_base o) s0 neg ds p /\ ds <> [] /\
    v = Some w /\ in_int_range (i_signed T) (i_bits T) w /\ (2 ^ 64 | w - int_value (o_base o) neg ds).
Proof.
  intros c u T o s s0 p v IT G SA B E.
  destruct (int_text_exists (i_signed T) (leading_plus (rules_of c o)) (o_base o) s0 B) as (neg & ds & rest & TX).
  destruct (int_main c u T o s s0 neg ds rest IT G SA B TX) as (NS & [(ED & E')|(ND & H)]); [rewrite E' in E; discriminate E|].
  set (V := base_value (o_base o) ds) in *.
  assert (D : (2 ^ 64 | V mod 2 ^ 64 - V)).
  { exists (- (V / 2 ^ 64)). pose proof (Z.div_mod V (2 ^ 64) ltac:(lia)). lia. }
  assert (V0 : 0 <= V) by (apply base_value_range; [lia|]; exact (int_text_digits _ _ _ _ _ _ _ TX)).
  assert (IR : forall a, 0 <= a <= int_limit (i_signed T) (i_bits T) neg -> in_int_range (i_signed T) (i_bits T) (if neg then - a else a)).
  { clear - NS IT. intros a A. destruct IT as (IB & _). unfold in_int_range, int_limit in *. destruct (i_signed T).
    - assert (0 < 2 ^ (i_bits T - 1)) by (apply Z.pow_pos_nonneg; [lia|]; cbn [In] in IB; lia). destruct neg; lia.
    - destruct neg; [discriminate (NS eq_refl)|]. lia. }
  destruct H as [(H1 & H2)|[(H1 & _ & H2)|(H1 & U & H2)]]; rewrite H2 in E; try discriminate E; injection E as <- <-;
    exists neg, ds; eexists; (split; [exact TX|]); (split; [exact ND|]); (split; [reflexivity|]).
  - split; [apply IR; lia|]. unfold int_value. fold V. exists 0. destruct neg; lia.
  - split; [apply IR; destruct U as (k & _ & _ & _ & U); pose proof (Z.mod_pos_bound V (2 ^ 64) ltac:(lia)); lia|].
    unfold int_value. fold V. destruct neg; [|exact D].
    destruct D as (q & D). exists (- q). lia.
Qed.
Print Assumptions from_chars_int_success.

Example int_errors_example :
  from_chars_int cfg_x86_64 Char_s int8_type [45;49;50;57;120] 10 = Ok {| r_ptr := [120]; r_ec := OutOfRange; r_value := None |} /\
  from_chars_int cfg_x86_64 Char_s int8_type [45;49;50;56;120] 10 = Ok {| r_ptr := [120]; r_ec := Success; r_value := Some (-128) |} /\
  from_chars_int cfg_x86_64 Char_s int8_type [45;120] 10 = Ok {| r_ptr := [45;120]; r_ec := InvalidArgument; r_value := None |} /\
  from_chars_int cfg_x86_64 Char_s uint8_type [50;53;54] 10 = Ok {| r_ptr := []; r_ec := OutOfRange; r_value := None |} /\
  from_chars_int cfg_x86_64 Char_s uint8_type [45;49] 10 = Ok {| r_ptr := [45;49]; r_ec := InvalidArgument; r_value := None |}.
Proof. vm_compute. repeat split; reflexivity. Qed.

(** ** C18 *)

(** The same type without its special cases: every digit through the general
    loop. *)
Definition general_rule (T : ity) : ity :=
  {| i_signed := i_signed T; i_bits := i_bits T; i_is_u8 := false; i_is_u16 := false; i_is_u64 := false |}.

Lemma general_rule_type T : int_type T -> int_type (general_rule T).
Proof. intros (A & _). split; [exact A|]. cbn. repeat split; discriminate. Qed.

Theorem from_chars_int_fast_paths :
  forall (c : cfg) (u : uc) (T : ity) (o : options) (s : list Z),
  int_type T -> good_int_text c u o s ->
  from_chars_int_advanced c u T s o = from_chars_int_advanced c u (general_rule T) s o.
Proof.
  intros c u T o s IT G.
  assert (SE : exists s0, starts_at c o s s0).
  { unfold starts_at. destruct (skips_space c o); [|eauto].
    clear. induction s as [|ch s (s0 & w & E & A & N)]; [exists [], []; repeat split; constructor|].
    destruct (space ch) eqn:SP.
    - exists s0, (ch :: w). rewrite E. repeat split; [constructor; assumption|exact N].
    - exists (ch :: s), []. repeat split; [constructor|]. cbn. congruence. }
  destruct SE as (s0 & SA).
  destruct (Z_le_gt_dec 2 (o_base o)) as [B2|B2]; [destruct (Z_le_gt_dec (o_base o) 36) as [B36|B36]|].
  - assert (B : 2 <= o_base o <= 36) by lia.
    destruct (int_text_exists (i_signed T) (leading_plus (rules_of c o)) (o_base o) s0 B) as (neg & ds & rest & TX).
    destruct (int_main c u T o s s0 neg ds rest IT G SA B TX) as (_ & H1).
    destruct (int_main c u (general_rule T) o s s0 neg ds rest (general_rule_type T IT) G SA B TX) as (_ & H2).
    cbn [general_rule i_signed i_bits] in H2.
    destruct H1 as [(E1 & ->)|(N1 & D1)], H2 as [(E2 & ->)|(N2 & D2)]; try contradiction; [reflexivity|].
    destruct D1 as [(A1 & ->)|[(A1 & U1 & ->)|(A1 & U1 & ->)]], D2 as [(A2 & ->)|[(A2 & U2 & ->)|(A2 & U2 & ->)]];
      try lia; try contradiction; reflexivity.
  - destruct (skip_space_int c u o s s0 G SA) as (E & _). unfold from_chars_int_advanced. cbv zeta. rewrite E. cbn [bind].
    destruct s0; [reflexivity|]. assert (36 <? o_base o = true) as -> by (apply Z.ltb_lt; lia). rewrite orb_true_r. reflexivity.
  - destruct (skip_space_int c u o s s0 G SA) as (E & _). unfold from_chars_int_advanced. cbv zeta. rewrite E. cbn [bind].
    destruct s0; [reflexivity|]. assert (o_base o <? 2 = true) as -> by (apply Z.ltb_lt; lia). reflexivity.
Qed.
Print Assumptions from_chars_int_fast_paths.

(** The general rule of the two types, spelled out: C15 for them. *)
Example fast_paths_example :
  from_chars_int cfg_x86_64 Char_s uint8_type [48;48;50;53;53;47] 10 = Ok {| r_ptr := [47]; r_ec := Success; r_value := Some 255 |} /\
  from_chars_int cfg_x86_64 Char_s (general_rule uint8_type) [48;48;50;53;53;47] 10 = Ok {| r_ptr := [47]; r_ec := Success; r_value := Some 255 |} /\
  from_chars_int cfg_x86_64 Char_s uint16_type [54;53;53;51;54;58] 10 = Ok {| r_ptr := [58]; r_ec := OutOfRange; r_value := None |} /\
  from_chars_int cfg_x86_64 Char_s (general_rule uint16_type) [54;53;53;51;54;58] 10 = Ok {| r_ptr := [58]; r_ec := OutOfRange; r_value := None |}.
Proof. vm_compute. repeat split; reflexivity. Qed.

(** ** C19 *)

(** A base outside 2..36 is reported whatever the text is (for an empty text,
    invalid_argument is the answer in any base). *)
Theorem from_chars_int_base :
  forall (c : cfg) (u : uc) (T : ity) (o : options) (s s0 : list Z),
  good_int_text c u o s -> starts_at c o s s0 -> ~ 2 <= o_base o <= 36 ->
  from_chars_int_advanced c u T s o = Ok {| r_ptr := s0; r_ec := InvalidArgument; r_value := None |}.
Proof.
  intros c u T o s s0 G SA NB.
  destruct (skip_space_int c u o s s0 G SA) as (E & _). unfold from_chars_int_advanced. cbv zeta. rewrite E. cbn [bind].
  destruct s0; [reflexivity|].
  destruct (Z.ltb_spec (o_base o) 2); [reflexivity|]. destruct (Z.ltb_spec 36 (o_base o)); [reflexivity|]. lia.
Qed.
Print Assumptions from_chars_int_base.

Example base_example :
  from_chars_int cfg_x86_64 Char_s int32_type [49;50] 37 = Ok {| r_ptr := [49;50]; r_ec := InvalidArgument; r_value := None |} /\
  from_chars_int cfg_x86_64 Char_s int32_type [49;50] (-10) = Ok {| r_ptr := [49;50]; r_ec := InvalidArgument; r_value := None |} /\
  from_chars_int cfg_x86_64 Char_s int32_type [122;90] 36 = Ok {| r_ptr := []; r_ec := Success; r_value := Some 1295 |}.
Proof. vm_compute. repeat split; reflexivity. Qed.

(** ** C12, C13, C24 for integers: defined, and a function of the text and the
    options only *)
Lemma int_starts c o s : exists s0, starts_at c o s s0.
Proof.
  unfold starts_at. destruct (skips_space c o); [|eauto].
  induction s as [|ch s (s0 & w & E & A & N)]; [exists [], []; repeat split; constructor|].
  destruct (space ch) eqn:SP.
  - exists s0, (ch :: w). rewrite E. repeat split; [constructor; assumption|exact N].
  - exists (ch :: s), []. repeat split; [constructor|]. cbn. congruence.
Qed.

Theorem from_chars_int_config_independent :
  forall (c1 c2 : cfg) (u1 u2 : uc) (T : ity) (o : options) (s : list Z),
  int_type T ->
  macro_leading_plus c1 = macro_leading_plus c2 -> macro_skip_ws c1 = macro_skip_ws c2 ->
  good_int_text c1 u1 o s -> good_int_text c2 u2 o s ->
  exists r, from_chars_int_advanced c1 u1 T s o = Ok r /\ from_chars_int_advanced c2 u2 T s o = Ok r.
Proof.
  intros c1 c2 u1 u2 T o s IT M1 M2 G1 G2. destruct (int_starts c1 o s) as (s0 & S1).
  assert (S2 : starts_at c2 o s s0) by (unfold starts_at, skips_space in *; rewrite <- M2; exact S1).
  assert (RL : rules_of c2 o = rules_of c1 o) by (unfold rules_of; rewrite M1; reflexivity).
  destruct (Z_le_gt_dec 2 (o_base o)) as [B2|B2]; [destruct (Z_le_gt_dec (o_base o) 36) as [B36|B36]|].
  2,3: rewrite (from_chars_int_base c1 u1 T o s s0 G1 S1) by lia; rewrite (from_chars_int_base c2 u2 T o s s0 G2 S2) by lia; eauto.
  assert (B : 2 <= o_base o <= 36) by lia.
  destruct (int_text_exists (i_signed T) (leading_plus (rules_of c1 o)) (o_base o) s0 B) as (neg & ds & rest & TX).
  destruct (int_main c1 u1 T o s s0 neg ds rest IT G1 S1 B TX) as (_ & H1).
  rewrite <- RL in TX.
  destruct (int_main c2 u2 T o s s0 neg ds rest IT G2 S2 B TX) as (_ & H2).
  destruct H1 as [(E1 & ->)|(N1 & D1)], H2 as [(E2 & ->)|(N2 & D2)]; try contradiction; [eauto|].
  destruct D1 as [(A1 & ->)|[(A1 & U1 & ->)|(A1 & U1 & ->)]], D2 as [(A2 & ->)|[(A2 & U2 & ->)|(A2 & U2 & ->)]];
    try lia; try contradiction; eauto.
Qed.
Print Assumptions from_chars_int_config_independent.

(** No undefined behaviour in integer parsing, whatever the text and the base;
    the end pointer lies in the text. *)
Theorem from_chars_int_defined :
  forall (c : cfg) (u : uc) (T : ity) (o : options) (s : list Z),
  int_type T -> Forall (code_unit u) s ->
  exists r, from_chars_int_advanced c u T s o = Ok r /\ exists consumed, s = consumed ++ r_ptr r.
Proof.
  intros c u T o s IT CU.
  assert (ST : exists w s0, s = w ++ s0 /\
    (if flag (adjust_for_feature_macros c (o_format o)) f_skip_white_space then skip_ws s else Ok s) = Ok s0).
  { destruct (flag _ _).
    - destruct (Defined.skip_ws_total s) as (w & s0 & E & ->). eauto.
    - exists [], s. split; reflexivity. }
  destruct ST as (w & s0 & ES & ST).
  assert (C0 : Forall (code_unit u) s0) by (rewrite ES in CU; apply Forall_app in CU; apply CU).
  destruct (Z_lt_ge_dec (o_base o) 2) as [B|B]; [|destruct (Z_gt_le_dec (o_base o) 36) as [B2|B2]].
  1,2: exists {| r_ptr := s0; r_ec := InvalidArgument; r_value := None |}; split; [|exists w; exact ES];
    unfold from_chars_int_advanced; cbv zeta; rewrite ST; cbn [bind]; destruct s0; [reflexivity|];
    destruct (Z.ltb_spec (o_base o) 2), (Z.ltb_spec 36 (o_base o)); try reflexivity; lia.
  destruct (int_text_exists (i_signed T) (leading_plus (rules_of c o)) (o_base o) s0 ltac:(lia)) as (neg & ds & rest & IX).
  assert (SUF : exists p, s0 = p ++ rest).
  { destruct IX as (s1 & SG & (E & _)). destruct SG; subst.
    - exists (45 :: ds). reflexivity.
    - exists (43 :: ds). reflexivity.
    - exists ds; reflexivity. }
  destruct SUF as (p & EP).
  assert (SUF : exists q, s = q ++ rest) by (exists (w ++ p); rewrite ES, EP; apply app_assoc).
  destruct (int_main_at c u T o s s0 neg ds rest IT ST C0 ltac:(lia) IX) as (_ & [(_ & E)|(_ & [(_ & E)|[(_ & _ & E)|(_ & _ & E)]])]);
    (eexists; split; [exact E|]); cbn [r_ptr success out_of_range]; try exact SUF.
  exists w. exact ES.
Qed.
Print Assumptions from_chars_int_defined.

(** ASCII texts: the character type does not matter. *)
Theorem from_chars_int_wide :
  forall (c : cfg) (u1 u2 : uc) (T : ity) (o : options) (s : list Z),
  int_type T -> Forall (fun ch => 0 <= ch < 128) s ->
  exists r, from_chars_int_advanced c u1 T s o = Ok r /\ from_chars_int_advanced c u2 T s o = Ok r.
Proof.
  intros c u1 u2 T o s IT A.
  assert (G : forall u, good_int_text c u o s).
  { intros u. split; [eapply Forall_impl; [|exact A]; intros ch H; cbn beta in H; destruct u; cbv [code_unit uc_min uc_max uc_signed uc_bits]; cbn; lia|].
    intros _ _. eapply Forall_impl; [|exact A]. cbn. lia. }
  apply from_chars_int_config_independent; auto.
Qed.
Print Assumptions from_chars_int_wide.

(** ** C25 for integers: what follows the digits does not matter *)
Theorem from_chars_int_trailing_text :
  forall (c : cfg) (u : uc) (T : ity) (o : options) (s s0 : list Z) (neg : bool) (ds t : list Z),
  int_type T -> good_int_text c u o (s ++ t) -> starts_at c o s s0 -> 2 <= o_base o <= 36 ->
  int_text (i_signed T) (leading_plus (rules_of c o)) (o_base o) s0 neg ds [] -> ds <> [] ->
  not_at (base_digit (o_base o)) t ->
  exists x v,
    from_chars_int_advanced c u T s o = Ok {| r_ptr := []; r_ec := x; r_value := v |} /\
    from_chars_int_advanced c u T (s ++ t) o = Ok {| r_ptr := t; r_ec := x; r_value := v |}.
Proof.
  intros c u T o s s0 neg ds t IT G SA B TX NE NT.
  assert (G1 : good_int_text c u o s).
  { destruct G as (G1 & G2). split; [apply Forall_app in G1; apply G1|]. intros W K. specialize (G2 W K). apply Forall_app in G2. apply G2. }
  destruct TX as (s1 & SG & ES & DD & _). rewrite app_nil_r in ES. subst s1.
  assert (NN : exists ch s2, s0 = ch :: s2).
  { destruct s0 as [|ch s2]; [|eauto]. inversion SG; subst. contradiction. }
  assert (TX1 : int_text (i_signed T) (leading_plus (rules_of c o)) (o_base o) s0 neg ds []).
  { exists ds. split; [exact SG|]. split; [rewrite app_nil_r; reflexivity|]. split; [exact DD|exact I]. }
  assert (TX2 : int_text (i_signed T) (leading_plus (rules_of c o)) (o_base o) (s0 ++ t) neg ds t).
  { exists (ds ++ t). split; [|split; [reflexivity|split; assumption]]. destruct NN as (ch & s2 & ->).
    inversion SG as [? HM|? HP|? H]; subst; cbn [app]; [apply int_minus; exact HM|apply int_plus; exact HP|apply int_unsigned; exact H]. }
  assert (SA2 : starts_at c o (s ++ t) (s0 ++ t)).
  { unfold starts_at in *. destruct (skips_space c o); [|subst s0; reflexivity]. destruct SA as (w & -> & A & N).
    exists w. split; [symmetry; apply app_assoc|]. split; [exact A|]. destruct NN as (ch & s2 & ->). exact N. }
  destruct (int_main c u T o s s0 neg ds [] IT G1 SA B TX1) as (_ & [(E1 & _)|(N1 & D1)]); [contradiction|].
  destruct (int_main c u T o (s ++ t) (s0 ++ t) neg ds t IT G SA2 B TX2) as (_ & [(E2 & _)|(N2 & D2)]); [contradiction|].
  destruct D1 as [(A1 & ->)|[(A1 & U1 & ->)|(A1 & U1 & ->)]], D2 as [(A2 & ->)|[(A2 & U2 & ->)|(A2 & U2 & ->)]];
    try lia; try contradiction; do 2 eexists; split; reflexivity.
Qed.
Print Assumptions from_chars_int_trailing_text.

Example int_relations_example :
  from_chars_int cfg_x86_64 Char_s int32_type [45;49;50] 10 = Ok {| r_ptr := []; r_ec := Success; r_value := Some (-12) |} /\
  from_chars_int cfg_x86_64 Wchar_s32 int32_type [45;49;50] 10 = Ok {| r_ptr := []; r_ec := Success; r_value := Some (-12) |} /\
  from_chars_int cfg_x86_64 Char_s int32_type [45;49;50;46;53] 10 = Ok {| r_ptr := [46;53]; r_ec := Success; r_value := Some (-12) |}.
Proof. vm_compute. repeat split; reflexivity. Qed.
