(** Property C86: what the result of a call depends on, for every text and every option set. *)
From Verif Require Import Machine Config Chars ParseNumber FromChars Ints WordLemmas SpecFloat FloatBridge SpecGrammar SpecApi SpecRel SpecInt SpecIntApi
  SpecCall SpecIntCall Scan ParseSpec Special FloatRel Props_Ints Props_Relations Props_Exponent Props_Exact Props_Call Props_IntCall Props_Pow10 Props_Int128.
From Coq Require Import QArith Qabs Qpower Lqa.
Open Scope Z_scope.

(** Two calls under the same rules. *)
Definition same_rules (c1 : cfg) (o1 : options) (c2 : cfg) (o2 : options) : Prop :=
  rules_of c1 o1 = rules_of c2 o2 /\ skips_space c1 o1 = skips_space c2 o2 /\ allows_special o1 = allows_special o2.

(** The one difference there can be: std::float16_t, infinity stored, with success by the one that
    converts with a single operation, with result_out_of_range by the other. *)
Definition differ_in_code (c1 c2 : cfg) (t : ftype) (a1 a2 : res result) : Prop :=
  t = F16 /\ exists p neg, let v := Some (with_sign binary16 neg (infinity binary16)) in
  (direct_arithmetic c1 /\ ~ direct_arithmetic c2 /\
     a1 = Ok {| r_ptr := p; r_ec := Success; r_value := v |} /\ a2 = Ok {| r_ptr := p; r_ec := OutOfRange; r_value := v |}) \/
  (~ direct_arithmetic c1 /\ direct_arithmetic c2 /\
     a1 = Ok {| r_ptr := p; r_ec := OutOfRange; r_value := v |} /\ a2 = Ok {| r_ptr := p; r_ec := Success; r_value := v |}).

Lemma undefined_units u1 u2 R s : Forall (code_unit u1) s -> Forall (code_unit u2) s -> undefined u1 R s -> undefined u2 R s.
Proof.
  intros F1 F2 UD. assert (D : u2 = Wchar_s32 \/ u2 <> Wchar_s32) by (destruct u2; (left; reflexivity) || (right; discriminate)).
  destruct D as [->|N]; [split; [reflexivity|apply UD]|]. exfalso. destruct UD as (E1 & UD). subst u1.
  apply (okc_at_small Wchar_s32 R s); [|split; [reflexivity|exact UD]].
  rewrite Forall_forall in *. intros ch IN. specialize (F1 _ IN). specialize (F2 _ IN). split; [exact F1|intros _].
  clear - F2 N. unfold code_unit in F2. destruct u2; try congruence; cbv [uc_min uc_max uc_signed uc_bits] in F2; cbn in F2; lia.
Qed.

Lemma one_not_zero v : (1 <= v)%Q -> nearest binary16 v 0 -> False.
Proof.
  intros L (_ & N). specialize (N 1 ltac:(vm_compute; split; discriminate)).
  assert (M0 : (magnitude binary16 0 == 0)%Q) by reflexivity.
  assert (M1 : (magnitude binary16 1 == 1 # 16777216)%Q) by reflexivity.
  rewrite M0, M1 in N. rewrite !Qabs_pos in N by lra. lra.
Qed.

Lemma whole_ge_1 W q : 0 < W -> 0 <= q -> (1 <= decimal W q)%Q.
Proof.
  intros HW Q. unfold decimal. change (10)%Q with (inject_Z 10). rewrite <- Zpower_Qpower, <- inject_Z_mult by lia.
  change 1%Q with (inject_Z 1). rewrite <- Zle_Qle. pose proof (Z.pow_pos_nonneg 10 q ltac:(lia) Q). nia.
Qed.

(** The codes of two calls for the same number. *)
Lemma codes_agree c1 c2 t W q b x1 x2 : nearest (format_of t) (decimal W q) b -> reported c1 t W q b x1 -> reported c2 t W q b x2 ->
  x1 = x2 \/
  (t = F16 /\ b = infinity binary16 /\
   ((direct_arithmetic c1 /\ ~ direct_arithmetic c2 /\ x1 = Success /\ x2 = OutOfRange) \/
    (~ direct_arithmetic c1 /\ direct_arithmetic c2 /\ x1 = OutOfRange /\ x2 = Success))).
Proof.
  intros NB (A1 & B1) (A2 & B2).
  assert (INF : t = F16 -> 0 <= q -> (0 < W /\ b = 0) \/ b = infinity (format_of t) -> b = infinity binary16).
  { intros -> Q [(HW & ->)|E]; [|exact E]. exfalso. exact (one_not_zero _ (whole_ge_1 W q HW Q) NB). }
  pose proof (direct_decided c1) as D1. pose proof (direct_decided c2) as D2.
  assert (ND : (Success = OutOfRange) -> False) by discriminate.
  destruct A1 as [-> | ->], A2 as [-> | ->]; [left; reflexivity|right|right|left; reflexivity].
  - destruct (proj1 B2 eq_refl) as (L & NS).
    assert (S1 : ~ ~ (t = F16 /\ direct_arithmetic c1 /\ W <= 2048 /\ 0 <= q <= 4)) by (intros X; apply ND, B1; split; assumption).
    assert (F : t = F16 /\ direct_arithmetic c1 /\ W <= 2048 /\ 0 <= q <= 4).
    { assert (DF : t = F16 \/ t <> F16) by (destruct t; (left; reflexivity) || (right; discriminate)).
      destruct DF as [->|NF]; [|exfalso; tauto]. destruct D1 as [D1|D1]; [|exfalso; tauto].
      destruct (Z_le_gt_dec W 2048), (Z_le_gt_dec 0 q), (Z_le_gt_dec q 4); try (exfalso; apply S1; lia). tauto. }
    destruct F as (F1 & F2 & F3 & F4). split; [exact F1|]. split; [apply INF; [exact F1|lia|exact L]|]. left. tauto.
  - destruct (proj1 B1 eq_refl) as (L & NS).
    assert (S1 : ~ ~ (t = F16 /\ direct_arithmetic c2 /\ W <= 2048 /\ 0 <= q <= 4)) by (intros X; apply ND, B2; split; assumption).
    assert (F : t = F16 /\ direct_arithmetic c2 /\ W <= 2048 /\ 0 <= q <= 4).
    { assert (DF : t = F16 \/ t <> F16) by (destruct t; (left; reflexivity) || (right; discriminate)).
      destruct DF as [->|NF]; [|exfalso; tauto]. destruct D2 as [D2|D2]; [|exfalso; tauto].
      destruct (Z_le_gt_dec W 2048), (Z_le_gt_dec 0 q), (Z_le_gt_dec q 4); try (exfalso; apply S1; lia). tauto. }
    destruct F as (F1 & F2 & F3 & F4). split; [exact F1|]. split; [apply INF; [exact F1|lia|exact L]|]. right. tauto.
Qed.

Lemma outcomes_agree c1 c2 u1 u2 t o1 o2 s0 a1 a2 : same_rules c1 o1 c2 o2 -> Forall (code_unit u1) s0 -> Forall (code_unit u2) s0 ->
  outcome c1 u1 t o1 s0 a1 -> outcome c2 u2 t o2 s0 a2 -> a1 = a2 \/ differ_in_code c1 c2 t a1 a2.
Proof.
  intros (ER & _ & EA) F1 F2 H1 H2.
  assert (EP : o_decimal_point o2 = o_decimal_point o1) by (symmetry; exact (f_equal point ER)).
  assert (UU : undefined u2 (rules_of c1 o1) s0 <-> undefined u1 (rules_of c1 o1) s0)
    by (split; apply undefined_units; assumption).
  assert (SN : forall n k r, special (leading_plus (rules_of c1 o1)) s0 n k r ->
     forall n' ip fp e q, ~ number (rules_of c1 o1) s0 n' ip fp e q).
  { intros n k r SP n' ip fp e q N. exact (special_not_number (rules_of c1 o1) _ _ _ _ _ SP _ _ _ _ _ N). }
  destruct H1 as [UD|neg ip fp e rest e' b x ND N RD NM v RO RP|neg ip fp e rest e' b x ND N RD DP MC W RO RP|neg k rest ND AL SP|ND NN NS];
  destruct H2 as [UD2|neg2 ip2 fp2 e2 rest2 e2' b2 x2 ND2 N2 RD2 NM2 v2 RO2 RP2|neg2 ip2 fp2 e2 rest2 e2' b2 x2 ND2 N2 RD2 DP2 MC2 W2 RO2 RP2|neg2 k2 rest2 ND2 AL2 SP2|ND2 NN2 NS2];
  rewrite <- ?ER, ?EP, <- ?EA in *; rewrite ?UU in *;
  try contradiction; try (left; reflexivity);
  try (exfalso; eapply SN; eassumption); try (exfalso; eapply NN; eassumption); try (exfalso; eapply NN2; eassumption);
  try (exfalso; eapply NS; eassumption); try (exfalso; eapply NS2; eassumption).
  1-4: destruct (number_unique _ _ _ _ _ _ _ _ _ _ _ _ N N2) as (<- & <- & <- & <- & <-);
       pose proof (read_unique _ _ _ RD RD2); subst e2'.
  - subst v v2. pose proof (rounded_unique _ _ _ _ _ RO RO2). subst b2.
    destruct (codes_agree c1 c2 t _ _ b x x2 (proj1 RO) RP RP2) as [->|(-> & -> & C)]; [left; reflexivity|right].
    split; [reflexivity|]. exists rest, neg. cbv zeta. destruct C as [(D1 & D2 & -> & ->)|(D1 & D2 & -> & ->)]; [left|right]; tauto.
  - tauto.
  - tauto.
  - subst W W2. pose proof (rounded_unique _ _ _ _ _ RO RO2). subst b2.
    destruct (codes_agree c1 c2 t _ _ b x x2 (proj1 RO) RP RP2) as [->|(-> & -> & C)]; [left; reflexivity|right].
    split; [reflexivity|]. exists rest, neg. cbv zeta. destruct C as [(D1 & D2 & -> & ->)|(D1 & D2 & -> & ->)]; [left|right]; tauto.
  - destruct (special_unique _ _ _ _ _ _ _ _ SP SP2) as (<- & <- & <-). left. reflexivity.
Qed.

(** C86.  The result of a floating-point call depends on nothing but the text, the type, the rules
    in force and - for the code of std::float16_t overflows - the use of a single operation. *)
Theorem from_chars_every_call_agrees :
  forall (c1 c2 : cfg) (u1 u2 : uc) (t : ftype) (o1 o2 : options) (s : list Z),
  same_rules c1 o1 c2 o2 -> Forall (code_unit u1) s -> Forall (code_unit u2) s -> Z.of_nat (length s) <= 2 ^ 59 ->
  let a1 := from_chars_float_advanced c1 u1 t s o1 in
  let a2 := from_chars_float_advanced c2 u2 t s o2 in
  (a1 = a2 \/ differ_in_code c1 c2 t a1 a2) /\
  (t <> F16 \/ (direct_arithmetic c1 <-> direct_arithmetic c2) -> a1 = a2).
Proof.
  intros c1 c2 u1 u2 t o1 o2 s SR F1 F2 LEN a1 a2.
  destruct (begins_somewhere c1 o1 s) as (ws & s0 & -> & B1 & _).
  assert (B2 : begins c2 o2 ws s0) by (unfold begins in *; destruct SR as (_ & <- & _); exact B1).
  apply Forall_app in F1. apply Forall_app in F2. rewrite app_length in LEN.
  assert (O1 : outcome c1 u1 t o1 s0 a1) by (apply (from_chars_every_call c1 u1 t o1 ws s0); [apply F1|lia|exact B1|reflexivity]).
  assert (O2 : outcome c2 u2 t o2 s0 a2) by (apply (from_chars_every_call c2 u2 t o2 ws s0); [apply F2|lia|exact B2|reflexivity]).
  pose proof (outcomes_agree c1 c2 u1 u2 t o1 o2 s0 a1 a2 SR (proj2 F1) (proj2 F2) O1 O2) as A. split; [exact A|].
  intros X. destruct A as [A|(F & p & neg & A)]; [exact A|]. exfalso. destruct X as [X|X]; [contradiction|]. clear - A X. cbv zeta in A. tauto.
Qed.
Print Assumptions from_chars_every_call_agrees.

(** The result of an integer call: the text, the size and signedness of the type, the base,
    whether a plus is allowed and white space skipped - nothing else. *)
Theorem from_chars_int_every_call_agrees :
  forall (c1 c2 : cfg) (u1 u2 : uc) (T1 T2 : ity) (o1 o2 : options) (s : list Z),
  leading_plus (rules_of c1 o1) = leading_plus (rules_of c2 o2) -> skips_space c1 o1 = skips_space c2 o2 -> o_base o1 = o_base o2 ->
  some_int_type T1 -> some_int_type T2 -> i_signed T1 = i_signed T2 -> i_bits T1 = i_bits T2 ->
  Forall (code_unit u1) s -> Forall (code_unit u2) s ->
  from_chars_int_advanced c1 u1 T1 s o1 = from_chars_int_advanced c2 u2 T2 s o2.
Proof.
  intros c1 c2 u1 u2 T1 T2 o1 o2 s EL ES EB I1 I2 EG ET F1 F2.
  destruct (begins_somewhere c1 o1 s) as (ws & s0 & -> & B1 & _).
  assert (B2 : begins c2 o2 ws s0) by (unfold begins in *; rewrite <- ES; exact B1).
  apply Forall_app in F1. apply Forall_app in F2.
  apply (from_chars_int_every_call c1 u1 T1 o1 ws s0 _ I1 (proj2 F1) B1).
  pose proof (proj1 (from_chars_int_every_call c2 u2 T2 o2 ws s0 _ I2 (proj2 F2) B2) eq_refl) as O2.
  rewrite <- EG, <- ET in O2. remember (from_chars_int_advanced c2 u2 T2 (ws ++ s0) o2) as a eqn:EA. clear EA.
  destruct O2; try subst v; rewrite <- ?EB, <- ?EL in *.
  - apply int_bad_base. assumption.
  - eapply int_no_digits; eassumption.
  - eapply int_stored; eassumption.
  - eapply int_refused; eassumption.
  - eapply int_overlooked; eassumption.
Qed.
Print Assumptions from_chars_int_every_call_agrees.

(** Which text is taken for a number, and up to where, does not depend on the type: two calls for
    any two types are both undefined, or both refuse, or both store something and return the same pointer. *)
Theorem from_chars_every_call_types :
  forall (c1 c2 : cfg) (u1 u2 : uc) (t1 t2 : ftype) (o1 o2 : options) (s : list Z),
  same_rules c1 o1 c2 o2 -> Forall (code_unit u1) s -> Forall (code_unit u2) s -> Z.of_nat (length s) <= 2 ^ 59 ->
  let a1 := from_chars_float_advanced c1 u1 t1 s o1 in
  let a2 := from_chars_float_advanced c2 u2 t2 s o2 in
  (a1 = UB /\ a2 = UB) \/
  (exists p, let refused := Ok {| r_ptr := p; r_ec := InvalidArgument; r_value := None |} in a1 = refused /\ a2 = refused) \/
  (exists p x1 x2 v1 v2, x1 <> InvalidArgument /\ x2 <> InvalidArgument /\
     a1 = Ok {| r_ptr := p; r_ec := x1; r_value := Some v1 |} /\ a2 = Ok {| r_ptr := p; r_ec := x2; r_value := Some v2 |}).
Proof.
  intros c1 c2 u1 u2 t1 t2 o1 o2 s SR F1 F2 LEN a1 a2.
  destruct (begins_somewhere c1 o1 s) as (ws & s0 & -> & B1 & _).
  assert (B2 : begins c2 o2 ws s0) by (unfold begins in *; destruct SR as (_ & <- & _); exact B1).
  apply Forall_app in F1. apply Forall_app in F2. rewrite app_length in LEN.
  assert (O1 : outcome c1 u1 t1 o1 s0 a1) by (apply (from_chars_every_call c1 u1 t1 o1 ws s0); [apply F1|lia|exact B1|reflexivity]).
  assert (O2 : outcome c2 u2 t2 o2 s0 a2) by (apply (from_chars_every_call c2 u2 t2 o2 ws s0); [apply F2|lia|exact B2|reflexivity]).
  destruct F1 as (_ & F1). destruct F2 as (_ & F2). clearbody a1 a2. clear B1 B2 LEN.
  destruct SR as (ER & _ & EA).
  assert (UU : undefined u2 (rules_of c1 o1) s0 <-> undefined u1 (rules_of c1 o1) s0)
    by (split; apply undefined_units; assumption).
  assert (SN : forall n k r, special (leading_plus (rules_of c1 o1)) s0 n k r ->
     forall n' ip fp e q, ~ number (rules_of c1 o1) s0 n' ip fp e q).
  { intros n k r SP n' ip fp e q N. exact (special_not_number (rules_of c1 o1) _ _ _ _ _ SP _ _ _ _ _ N). }
  destruct O1 as [UD|neg ip fp e rest e' b x ND N RD NM v RO RP|neg ip fp e rest e' b x ND N RD DP MC W RO RP|neg k rest ND AL SP|ND NN NS];
  destruct O2 as [UD2|neg2 ip2 fp2 e2 rest2 e2' b2 x2 ND2 N2 RD2 NM2 v2 RO2 RP2|neg2 ip2 fp2 e2 rest2 e2' b2 x2 ND2 N2 RD2 DP2 MC2 W2 RO2 RP2|neg2 k2 rest2 ND2 AL2 SP2|ND2 NN2 NS2];
  rewrite <- ?ER, <- ?EA in *; rewrite ?UU in *;
  try contradiction; try (left; split; reflexivity);
  try (exfalso; eapply SN; eassumption); try (exfalso; eapply NN; eassumption); try (exfalso; eapply NN2; eassumption);
  try (exfalso; eapply NS; eassumption); try (exfalso; eapply NS2; eassumption).
  1-4: destruct (number_unique _ _ _ _ _ _ _ _ _ _ _ _ N N2) as (<- & <- & <- & <- & <-).
  1-4: right; right; do 5 eexists; split; [|split; [|split; reflexivity]];
       [destruct (proj1 RP) as [-> | ->]; discriminate|destruct (proj1 RP2) as [-> | ->]; discriminate].
  - destruct (special_unique _ _ _ _ _ _ _ _ SP SP2) as (<- & <- & <-). right. right. do 5 eexists.
    split; [|split; [|split; reflexivity]]; discriminate.
  - right. left. eexists. cbv zeta. split; reflexivity.
Qed.
Print Assumptions from_chars_every_call_types.

(** The hypotheses are met and both cases occur: fifty '5's with '5' as separator over char and
    wchar_t with other irrelevant options; "7e4" as std::float16_t at run and at compile time. *)
Example every_call_agrees_example :
  let o1 := {| o_format := 5; o_decimal_point := 53; o_base := 10 |} in
  let o2 := {| o_format := 5 + 2 + 8; o_decimal_point := 53; o_base := 99 |} in
  same_rules cfg_x86_64 o1 (at_compile_time cfg_x86_64) o2 /\
  Forall (code_unit Char_s) (repeat 53 50) /\ Forall (code_unit Wchar_s32) (repeat 53 50) /\
  from_chars_float_advanced cfg_x86_64 Char_s F64 (repeat 53 50) o1 =
    from_chars_float_advanced (at_compile_time cfg_x86_64) Wchar_s32 F64 (repeat 53 50) o2 /\
  differ_in_code cfg_x86_64 (at_compile_time cfg_x86_64) F16
    (from_chars_float_advanced cfg_x86_64 Char_s F16 [55; 101; 52] general)
    (from_chars_float_advanced (at_compile_time cfg_x86_64) Char_s F16 [55; 101; 52] general).
Proof.
  cbv zeta.
  assert (SR : same_rules cfg_x86_64 {| o_format := 5; o_decimal_point := 53; o_base := 10 |} (at_compile_time cfg_x86_64)
    {| o_format := 5 + 2 + 8; o_decimal_point := 53; o_base := 99 |}) by (repeat split).
  assert (C1 : forall u, u = Char_s \/ u = Wchar_s32 -> Forall (code_unit u) (repeat 53 50)).
  { intros u UE. cbn [repeat]. repeat (apply Forall_cons; [destruct UE as [-> | ->]; split; discriminate|]). apply Forall_nil. }
  split; [exact SR|]. split; [apply C1; auto|]. split; [apply C1; auto|]. split.
  - apply from_chars_every_call_agrees; [exact SR|apply C1; auto|apply C1; auto|vm_compute; discriminate|left; discriminate].
  - split; [reflexivity|]. exists [], false. left. split; [repeat split; left; reflexivity|]. split; [intros (A & _); discriminate A|].
    split; vm_compute; reflexivity.
Qed.
