(** Integer parsing: refinement of the code to SpecInt. *)
From Verif Require Import Machine Config Tables Chars ParseNumber FromChars Ints WordLemmas SpecGrammar Swar Scan
  SpecApi ParseSpec Special SpecInt.
From Verif Require Export SpecIntApi.
Open Scope Z_scope.

(** ** Digits *)
Lemma sweep256 (P : Z -> bool) : forallb P (map Z.of_nat (seq 0 256)) = true -> forall k, 0 <= k < 256 -> P k = true.
Proof.
  intros T k Hk. rewrite forallb_forall in T. apply T. apply in_map_iff. exists (Z.to_nat k). split; [lia|apply in_seq; lia].
Qed.

Lemma digit_of_range ch d : digit_of ch = Some d -> 0 <= d <= 35 /\ 48 <= ch <= 122.
Proof.
  unfold digit_of. destruct (Z.leb_spec 48 ch), (Z.leb_spec ch 57), (Z.leb_spec 97 ch), (Z.leb_spec ch 122),
    (Z.leb_spec 65 ch), (Z.leb_spec ch 90); cbn [andb]; intros E; try discriminate E; injection E as <-; lia.
Qed.

Lemma chdigit_spec : forall k, 0 <= k < 256 -> nth_res chdigit k = Ok (match digit_of k with Some d => d | None => 255 end).
Proof.
  intros k Hk.
  pose proof (sweep256 (fun k => match nth_res chdigit k with Ok v => v =? (match digit_of k with Some d => d | None => 255 end) | UB => false end)
    ltac:(vm_compute; reflexivity) k Hk) as T. cbn beta in T.
  destruct (nth_res chdigit k); [|discriminate T]. apply Z.eqb_eq in T. rewrite T. reflexivity.
Qed.

Lemma land_high x : 0 <= x < 2 ^ 64 -> (Z.land x (2 ^ 64 - 256) = 0 <-> x < 256).
Proof.
  intros H.
  assert (E : Z.land x (2 ^ 64 - 256) = x - x mod 256).
  { change (2 ^ 64 - 256) with (Z.shiftl (Z.ones 56) 8).
    replace (Z.land x (Z.shiftl (Z.ones 56) 8)) with (Z.shiftl (Z.land (Z.shiftr x 8) (Z.ones 56)) 8).
    - rewrite Z.land_ones by lia. rewrite Z.shiftr_div_pow2 by lia. rewrite Z.shiftl_mul_pow2 by lia.
      rewrite Z.mod_small; [change (2 ^ 8) with 256; pose proof (Z.div_mod x 256 ltac:(lia)); lia|].
      split; [apply Z.div_pos; lia|]. apply Z.div_lt_upper_bound; [lia|]. change (2 ^ 8 * 2 ^ 56) with (2 ^ 64). lia.
    - rewrite Z.shiftl_land. rewrite Z.shiftr_div_pow2, Z.shiftl_mul_pow2 by lia. clear.
      apply Z.bits_inj'. intros n Hn. rewrite !Z.land_spec. rewrite Z.shiftl_spec by lia.
      destruct (Z_lt_ge_dec n 8) as [L|G].
      + rewrite (Z.testbit_neg_r (Z.ones 56)) by lia. rewrite !andb_false_r. reflexivity.
      + f_equal. rewrite <- Z.shiftl_mul_pow2, <- Z.shiftr_div_pow2 by lia. rewrite Z.shiftl_spec, Z.shiftr_spec by lia. f_equal. lia. }
  rewrite E. pose proof (Z.mod_pos_bound x 256 ltac:(lia)). split; [lia|]. intros L. rewrite Z.mod_small by lia. lia.
Qed.

Lemma ch_to_digit_spec u ch : code_unit u ch ->
  ch_to_digit u ch = Ok (match digit_of ch with Some d => d | None => 255 end).
Proof.
  intros C. unfold ch_to_digit.
  assert (BU : 8 <= uc_bits u <= 32) by (destruct u; cbn; lia).
  assert (PU : 2 ^ 8 <= 2 ^ uc_bits u <= 2 ^ 32) by (split; apply Z.pow_le_mono_r; lia).
  pose proof (Z.mod_pos_bound ch (2 ^ uc_bits u) ltac:(lia)) as MB.
  destruct (Z.eqb_spec (Z.land (ch mod 2 ^ uc_bits u) (2 ^ 64 - 256)) 0) as [E|E].
  - apply land_high in E; [|lia].
    assert (LN : Z.land (ch mod 2 ^ uc_bits u) (2 ^ uc_bits u - 1) = ch mod 2 ^ uc_bits u).
    { replace (2 ^ uc_bits u - 1) with (Z.ones (uc_bits u)) by (rewrite Z.ones_equiv; lia).
      rewrite Z.land_ones by lia. apply Z.mod_mod. lia. }
    rewrite LN. unfold u8. rewrite (Z.mod_small _ (2 ^ 8)) by lia. rewrite chdigit_spec by lia. f_equal.
    destruct (Z_lt_ge_dec ch 0) as [N|N].
    + assert (H : ch mod 2 ^ uc_bits u = ch + 2 ^ uc_bits u).
      { symmetry. apply (Z.mod_unique_pos _ _ (-1)); [|lia]. unfold code_unit, uc_min in C. destruct u; cbn in C, N |- *; lia. }
      rewrite H in *. assert (u = Char_s) as -> by (unfold code_unit, uc_min in C; destruct u; cbn in C, E; reflexivity || lia).
      replace (digit_of ch) with (@None Z).
      * unfold code_unit in C. cbn in C. cbn [uc_bits] in *.
        destruct (digit_of (ch + 2 ^ 8)) as [d|] eqn:D; [|reflexivity]. apply digit_of_range in D. lia.
      * destruct (digit_of ch) as [d|] eqn:D; [|reflexivity]. apply digit_of_range in D. lia.
    + rewrite Z.mod_small; [reflexivity|]. unfold code_unit, uc_max in C. destruct u; cbn in C |- *; lia.
  - assert (256 <= ch mod 2 ^ uc_bits u).
    { destruct (Z_lt_ge_dec (ch mod 2 ^ uc_bits u) 256) as [L|G]; [|lia]. exfalso. apply E. apply land_high; lia. }
    rewrite Z.land_0_r. change (u8 0) with 0. rewrite chdigit_spec by lia.
    replace (digit_of ch) with (@None Z); [reflexivity|].
    destruct (digit_of ch) as [d|] eqn:D; [|reflexivity]. apply digit_of_range in D. rewrite Z.mod_small in H by lia. lia.
Qed.

Lemma base_digit_test base ch : 2 <= base <= 36 ->
  (match digit_of ch with Some d => d | None => 255 end <? base) = true <-> base_digit base ch.
Proof.
  intros B. rewrite Z.ltb_lt. unfold base_digit. destruct (digit_of ch) as [d|].
  - split; [intros L; exists d; auto|intros (d' & E & L); congruence].
  - split; [lia|intros (d & E & _); discriminate E].
Qed.

Lemma base_digit_ten ch : base_digit 10 ch <-> digit ch = true.
Proof.
  rewrite digit_true. unfold base_digit, digit_of.
  destruct (Z.leb_spec 48 ch), (Z.leb_spec ch 57), (Z.leb_spec 97 ch), (Z.leb_spec ch 122),
    (Z.leb_spec 65 ch), (Z.leb_spec ch 90); cbn [andb]; split; try (intros (d & E & L); (discriminate E || (injection E as <-; lia)));
    try (intros; eexists; split; [reflexivity|]; lia); try lia.
Qed.
Lemma base_digits_ten ds : Forall (base_digit 10) ds <-> all_digits ds.
Proof. split; intros H; (eapply Forall_impl; [|exact H]); intros ch; apply base_digit_ten. Qed.

Definition dv (ch : Z) : Z := match digit_of ch with Some d => d | None => 0 end.
Lemma dv_range base ch : base_digit base ch -> 0 <= dv ch < base.
Proof. intros (d & E & L). unfold dv. rewrite E. apply digit_of_range in E. lia. Qed.

Lemma base_value_app base a b : base_value base (a ++ b) = base_value base a * base ^ Z.of_nat (length b) + base_value base b.
Proof.
  unfold base_value. rewrite fold_left_app. generalize (fold_left (fun a0 ch => a0 * base + match digit_of ch with Some d => d | None => 0 end) a 0).
  induction b as [|x b IH] using rev_ind; intros z; [cbn; lia|].
  rewrite !fold_left_app, app_length. cbn [fold_left length]. rewrite (IH z), Nat2Z.inj_add. change (Z.of_nat 1) with 1.
  rewrite Z.pow_add_r by lia. lia.
Qed.
Lemma base_value_cons base x l : base_value base (x :: l) = dv x * base ^ Z.of_nat (length l) + base_value base l.
Proof. change (x :: l) with ([x] ++ l). rewrite base_value_app. reflexivity. Qed.
Lemma base_value_range base ds : 2 <= base -> Forall (base_digit base) ds -> 0 <= base_value base ds < base ^ Z.of_nat (length ds).
Proof.
  intros B. induction ds as [|x l IH]; intros H; [cbn; lia|]. inversion H; subst. specialize (IH H3).
  pose proof (dv_range _ _ H2). rewrite base_value_cons. cbn [length]. rewrite Nat2Z.inj_succ, Z.pow_succ_r by lia. nia.
Qed.
Lemma base_value_lower base x l : 2 <= base -> base_digit base x -> x <> 48 -> Forall (base_digit base) l ->
  base ^ Z.of_nat (length l) <= base_value base (x :: l).
Proof.
  intros B X NX L. rewrite base_value_cons. pose proof (base_value_range base l B L).
  assert (1 <= dv x).
  { destruct X as (d & E & _). unfold dv. rewrite E. revert E NX. unfold digit_of.
    destruct (Z.leb_spec 48 x), (Z.leb_spec x 57), (Z.leb_spec 97 x), (Z.leb_spec x 122),
      (Z.leb_spec 65 x), (Z.leb_spec x 90); cbn [andb]; intros E; try discriminate E; injection E as <-; lia. }
  nia.
Qed.
Lemma base_value_ten ds : all_digits ds -> base_value 10 ds = digits_value ds.
Proof.
  induction ds as [|x l IH]; intros H; [reflexivity|]. inversion H; subst. rewrite base_value_cons, digits_value_cons, IH by assumption.
  f_equal. f_equal. apply digit_true in H2. unfold dv, digit_of.
  destruct (Z.leb_spec 48 x), (Z.leb_spec x 57); cbn [andb]; try lia; reflexivity.
Qed.

(** ** The digit loop *)
Definition bacc (base i : Z) (ds : list Z) : Z := u64 (i * base ^ Z.of_nat (length ds) + base_value base ds).

Lemma bacc_cons base i x l : bacc base i (x :: l) = bacc base (u64 (u64 (base * i) + dv x)) l.
Proof.
  unfold bacc. rewrite base_value_cons. cbn [length]. rewrite Nat2Z.inj_succ, Z.pow_succ_r by lia.
  rewrite u64_mul_add. rewrite Z.mul_add_distr_r, <- Z.add_assoc.
  rewrite u64_mul_add. f_equal. lia.
Qed.

Lemma int_loop_spec u base : 2 <= base <= 36 -> forall ds s rest i, 0 <= i < 2 ^ 64 -> Forall (code_unit u) s ->
  base_run base s ds rest -> int_loop u base s i = Ok (rest, bacc base i ds).
Proof.
  intros B. induction ds as [|x ds IH]; intros s rest i Hi C (E & D & N); subst s.
  - cbn [app]. assert (BA : bacc base i [] = i) by (unfold bacc; cbn; rewrite u64_small by lia; lia). rewrite BA.
    destruct rest as [|ch rest]; [reflexivity|]. inversion C; subst. cbn [app int_loop]. rewrite (ch_to_digit_spec u) by assumption.
    cbn [bind]. cbn in N. rewrite <- (base_digit_test base ch B) in N.
    destruct (Z.leb_spec base (match digit_of ch with Some d => d | None => 255 end)) as [L|L]; [reflexivity|].
    exfalso. apply N. apply Z.ltb_lt. lia.
  - cbn [app] in C |- *. inversion C; subst. inversion D as [|? ? D1 D2]; subst. cbn [int_loop]. rewrite (ch_to_digit_spec u) by assumption. cbn [bind].
    pose proof (proj2 (base_digit_test base x B) D1) as T. apply Z.ltb_lt in T.
    destruct (Z.leb_spec base (match digit_of x with Some d => d | None => 255 end)) as [L|L]; [lia|].
    rewrite bacc_cons. replace (dv x) with (match digit_of x with Some d => d | None => 255 end).
    + apply IH; [apply u64_range|assumption|repeat split; assumption].
    + destruct D1 as (d & Ed & _). unfold dv. rewrite Ed. reflexivity.
Qed.

Lemma base_run_split base a s ds rest : Forall (base_digit base) a -> base_run base (a ++ s) ds rest ->
  exists ds', ds = a ++ ds' /\ base_run base s ds' rest.
Proof.
  revert ds. induction a as [|x a IH]; intros ds A R; [exists ds; auto|].
  inversion A as [|? ? A1 A2]; subst. destruct R as (E & D & N). destruct ds as [|y ds].
  - exfalso. cbn in E. rewrite <- E in N. cbn in N. contradiction.
  - cbn in E. injection E as <- E. inversion D; subst.
    destruct (IH ds A2) as (ds' & -> & R'); [repeat split; assumption|]. exists ds'. auto.
Qed.

Lemma scan_digits c u base s ds rest : 2 <= base <= 36 -> Forall (code_unit u) s -> base_run base s ds rest ->
  (let* '(p, i) := (if base =? 10 then loop_parse_if_eight_digits c u s 0 else Ok (s, 0)) in int_loop u base p i)
  = Ok (rest, bacc base 0 ds).
Proof.
  intros B C R. destruct (Z.eqb_spec base 10) as [->|NB]; [|cbn [bind]; apply int_loop_spec; try assumption; lia].
  assert (SC : scanned s 0 (loop_parse_if_eight_digits c u s 0)).
  { destruct (match u with Wchar_s32 => true | _ => false end) eqn:U.
    - assert (u = Wchar_s32) as -> by (destruct u; congruence). unfold loop_parse_if_eight_digits. cbn [uc_is_char].
      unfold has_simd_opt. cbn [uc_is_char16]. rewrite andb_false_r. apply scanned_refl. lia.
    - apply loop_parse_spec; [|lia]. eapply Forall_impl; [|exact C]. intros ch H. split; [exact H|]. intros ->. discriminate U. }
  destruct SC as (d1 & r1 & -> & A1 & ->). cbn [bind].
  destruct (base_run_split 10 d1 r1 ds rest (proj2 (base_digits_ten _) A1) R) as (d2 & -> & R2).
  apply Forall_app in C. rewrite (int_loop_spec u 10 B d2 r1 rest (acc 0 d1) (acc_range _ _)); [|apply C|exact R2].
  f_equal. f_equal. unfold bacc, acc. rewrite base_value_app, (base_value_ten d1 A1), app_length.
  rewrite u64_mul_add. reflexivity.
Qed.

(** ** Limits *)
Lemma digit_limits base : 2 <= base <= 36 -> exists k,
  max_digits_u64 base = Ok k /\ min_safe_u64 base = Ok (base ^ (k - 1)) /\ 0 < k /\
  2 ^ 33 < base ^ (k - 1) < 2 ^ 64 /\ 2 ^ 64 <= base ^ k.
Proof.
  intros B.
  assert (T : forallb (fun b => match max_digits_u64 b, min_safe_u64 b with
      | Ok k, Ok m => (m =? b ^ (k - 1)) && (0 <? k) && (2 ^ 33 <? m) && (m <? 2 ^ 64) && (2 ^ 64 <=? b ^ k)
      | _, _ => false end) (map Z.of_nat (seq 2 35)) = true) by (vm_compute; reflexivity).
  rewrite forallb_forall in T. specialize (T base).
  assert (I : In base (map Z.of_nat (seq 2 35))) by (apply in_map_iff; exists (Z.to_nat base); split; [lia|apply in_seq; lia]).
  specialize (T I). destruct (max_digits_u64 base) as [k|]; [|discriminate T]. destruct (min_safe_u64 base) as [m|]; [|discriminate T].
  rewrite !andb_true_iff, Z.eqb_eq, !Z.ltb_lt, Z.leb_le in T. destruct T as ((((-> & K) & M1) & M2) & M3).
  exists k. auto 8.
Qed.

(** ** The general path *)

Definition no_leading_zero (ds : list Z) : Prop := not_at (fun ch => ch = 48) ds.

Lemma to_signed_wrap n x : 0 < n <= 64 -> - 2 ^ (n - 1) <= x < 2 ^ (n - 1) -> to_signed n (u64 x) = x.
Proof.
  intros N X. unfold to_signed, u64.
  assert (M : (x mod 2 ^ 64) mod 2 ^ n = x mod 2 ^ n).
  { replace (2 ^ 64) with (2 ^ n * 2 ^ (64 - n)) by (rewrite <- Z.pow_add_r by lia; f_equal; lia).
    rewrite Z.rem_mul_r by lia. rewrite (Z.mul_comm (2 ^ n)), Z.mod_add by lia. apply Z.mod_mod. lia. }
  rewrite M.
  assert (P : 2 ^ n = 2 * 2 ^ (n - 1)) by (rewrite <- Z.pow_succ_r by lia; f_equal; lia).
  destruct (Z_lt_ge_dec x 0) as [L|G].
  - rewrite <- (Z.mod_unique_pos x (2 ^ n) (-1) (x + 2 ^ n)) by lia.
    destruct (Z.ltb_spec (x + 2 ^ n) (2 ^ (n - 1))); lia.
  - rewrite Z.mod_small by lia. destruct (Z.ltb_spec x (2 ^ (n - 1))); lia.
Qed.

Lemma to_signed_small n x : 0 < n <= 64 -> - 2 ^ (n - 1) <= x < 2 ^ (n - 1) -> to_signed n x = x.
Proof.
  intros N X. rewrite <- (to_signed_wrap n x N X) at 2. unfold to_signed, u64.
  assert (M : (x mod 2 ^ 64) mod 2 ^ n = x mod 2 ^ n).
  { replace (2 ^ 64) with (2 ^ n * 2 ^ (64 - n)) by (rewrite <- Z.pow_add_r by lia; f_equal; lia).
    rewrite Z.rem_mul_r by lia. rewrite (Z.mul_comm (2 ^ n)), Z.mod_add by lia. apply Z.mod_mod. lia. }
  rewrite M. reflexivity.
Qed.

Lemma pow_between b M k k' : 2 <= b -> 0 < k -> 0 < k' -> b ^ (k - 1) < M -> M <= b ^ k -> b ^ (k' - 1) < M -> M <= b ^ k' -> k' = k.
Proof.
  intros B K K' A1 A2 A3 A4. destruct (Z.lt_trichotomy k' k) as [H|[H|H]]; [exfalso|exact H|exfalso].
  - assert (b ^ k' <= b ^ (k - 1)) by (apply Z.pow_le_mono_r; lia). lia.
  - assert (b ^ k <= b ^ (k' - 1)) by (apply Z.pow_le_mono_r; lia). lia.
Qed.

Lemma limit_range T neg : int_type T -> (neg = true -> i_signed T = true) ->
  let L := int_limit (i_signed T) (i_bits T) neg in
  0 < L /\ L < 2 ^ 64 /\
  forall i, 0 <= i < 2 ^ 64 -> negb (i_is_u64 T) && (u64 (i_max T + (if neg then 1 else 0)) <? i) = (L <? i).
Proof.
  intros (B & _ & _ & U64) NS L.
  assert (R : 0 < L < 2 ^ 64 /\ L = i_max T + (if neg then 1 else 0)).
  { unfold L, int_limit, i_max. destruct (i_signed T); [|destruct neg; [discriminate (NS eq_refl)|]];
      cbn [In] in B; repeat (destruct B as [B|B]; [rewrite <- B; try destruct neg; cbn; lia|]); contradiction. }
  destruct R as (R & E). split; [lia|]. split; [lia|]. intros i Hi. rewrite <- E, u64_small by lia.
  destruct (i_is_u64 T) eqn:U; [|reflexivity]. destruct (U64 eq_refl) as (S & BB). cbn [negb andb]. symmetry. apply Z.ltb_ge.
  unfold L, int_limit. rewrite S, BB. lia.
Qed.

Lemma stored_value T neg rest i : int_type T -> (neg = true -> i_signed T = true) ->
  0 <= i <= int_limit (i_signed T) (i_bits T) neg ->
  (if neg then
     let* v := chk (Z.max 32 (i_bits T)) (- i_max T - to_signed (i_bits T) (u64 (i - i_max T))) in
     Ok (success rest (to_signed (i_bits T) v))
   else Ok (success rest (if i_signed T then to_signed (i_bits T) i
                          else if i_bits T =? 1 then (if i =? 0 then 0 else 1)
                          else i mod 2 ^ i_bits T)))
  = Ok (success rest (if neg then - i else i)).
Proof.
  intros (B & _) NS. unfold int_limit, i_max. destruct neg.
  - rewrite (NS eq_refl) in B |- *. intros Hi.
    assert (BB : 8 <= i_bits T <= 64) by (cbn [In] in B; lia).
    assert (P2 : 2 ^ 7 <= 2 ^ (i_bits T - 1)) by (apply Z.pow_le_mono_r; lia).
    rewrite to_signed_wrap by lia.
    replace (- (2 ^ (i_bits T - 1) - 1) - (i - (2 ^ (i_bits T - 1) - 1))) with (- i) by lia.
    assert (CK : chk (Z.max 32 (i_bits T)) (- i) = Ok (- i)).
    { unfold chk. assert (2 ^ (i_bits T - 1) <= 2 ^ (Z.max 32 (i_bits T) - 1)) by (apply Z.pow_le_mono_r; lia).
      destruct (Z.leb_spec (- 2 ^ (Z.max 32 (i_bits T) - 1)) (- i)); [|lia].
      destruct (Z.ltb_spec (- i) (2 ^ (Z.max 32 (i_bits T) - 1))); [reflexivity|lia]. }
    rewrite CK. cbn [bind]. rewrite to_signed_small by lia. reflexivity.
  - destruct (i_signed T); intros Hi.
    + rewrite to_signed_small; [reflexivity| |]; cbn [In] in B; lia.
    + destruct (Z.eqb_spec (i_bits T) 1) as [E|NE].
      * rewrite E in Hi. change (2 ^ 1) with 2 in Hi. destruct (Z.eqb_spec i 0); do 2 f_equal; lia.
      * rewrite Z.mod_small by lia. reflexivity.
Qed.

Lemma general_spec c u T base neg hz first s ds rest : int_type T -> (neg = true -> i_signed T = true) ->
  2 <= base <= 36 -> Forall (code_unit u) s -> base_run base s ds rest -> no_leading_zero ds ->
  let V := base_value base ds in
  let L := int_limit (i_signed T) (i_bits T) neg in
  let r := parse_int_general c u T base neg hz first s in
  (ds = [] /\ r = Ok (no_digits hz first rest)) \/
  (ds <> [] /\
   ((V <= L /\ r = Ok (success rest (if neg then - V else V))) \/
    (L < V /\ ~ unnoticed base L V /\ r = Ok (out_of_range rest)) \/
    (L < V /\ unnoticed base L V /\ r = Ok (success rest (if neg then - (V mod 2 ^ 64) else V mod 2 ^ 64))))).
Proof.
  intros IT NS B C R NZ V L r.
  assert (RR : r = let digit_count := remaining s - remaining rest in let i := bacc base 0 ds in
    if digit_count =? 0 then Ok (no_digits hz first rest) else
    let* maxd := max_digits_u64 base in
    if maxd <? digit_count then Ok (out_of_range rest)
    else
      let* safe := min_safe_u64 base in
      if (digit_count =? maxd) && (i <? safe) then Ok (out_of_range rest)
      else if negb (i_is_u64 T) && (u64 (i_max T + (if neg then 1 else 0)) <? i) then
        Ok (out_of_range rest)
      else if neg then
        let d := to_signed (i_bits T) (u64 (i - i_max T)) in
        let* v := chk (Z.max 32 (i_bits T)) (- i_max T - d) in
        Ok (success rest (to_signed (i_bits T) v))
      else Ok (success rest (if i_signed T then to_signed (i_bits T) i
                          else if i_bits T =? 1 then (if i =? 0 then 0 else 1)
                          else i mod 2 ^ i_bits T))).
  { unfold r, parse_int_general. pose proof (scan_digits c u base s ds rest B C R) as SD. revert SD. clear.
    destruct (if base =? 10 then loop_parse_if_eight_digits c u s 0 else Ok (s, 0)) as [(p & i)|]; cbn [bind]; [|discriminate].
    intros ->. cbn [bind]. reflexivity. }
  clearbody r. rewrite RR. clear RR r. pose proof R as (ER & DR & NR).
  assert (DC : remaining s - remaining rest = Z.of_nat (length ds)) by (rewrite ER; unfold remaining; rewrite app_length; lia).
  cbv zeta. rewrite DC. clear DC.
  destruct ds as [|x ds]; [left; split; reflexivity|]. right. split; [discriminate|].
  assert (DCZ : (Z.of_nat (length (x :: ds)) =? 0) = false) by (apply Z.eqb_neq; cbn [length]; lia). rewrite DCZ.
  destruct (digit_limits base B) as (k & -> & -> & K0 & KS & KL). cbn [bind].
  inversion DR as [|? ? D1 D2]; subst x0 l.
  pose proof (base_value_lower base x ds ltac:(lia) D1 NZ D2) as VL. fold V in VL.
  pose proof (base_value_range base (x :: ds) ltac:(lia) DR) as VU. fold V in VU.
  assert (EI : bacc base 0 (x :: ds) = V mod 2 ^ 64) by reflexivity. rewrite EI. clear EI.
  set (n := Z.of_nat (length (x :: ds))) in *.
  assert (EN : Z.of_nat (length ds) = n - 1) by (unfold n; cbn [length]; lia). rewrite EN in VL. clear DCZ.
  assert (N1 : 1 <= n) by (unfold n; cbn [length]; lia). clearbody n V.
  destruct (limit_range T neg IT NS) as (L0 & L64 & LC). fold L in L0, L64, LC.
  pose proof (Z.mod_pos_bound V (2 ^ 64) ltac:(lia)) as MB.
  destruct (Z.ltb_spec k n) as [KN|KN].
  { right. left. assert (base ^ k <= base ^ (n - 1)) by (apply Z.pow_le_mono_r; lia).
    split; [lia|]. split; [|reflexivity]. intros (k' & K' & (U1 & U2) & U3 & U4).
    assert (k' = k) by (apply (pow_between base (2 ^ 64)); lia). subst k'. lia. }
  assert (CASES : (V mod 2 ^ 64 = V /\ V < 2 ^ 64) \/ (2 ^ 64 <= V /\ n = k)).
  { destruct (Z_lt_ge_dec V (2 ^ 64)) as [S|S]; [left; split; [apply Z.mod_small; lia|exact S]|right].
    split; [lia|]. destruct (Z.eq_dec n k) as [->|NK]; [reflexivity|].
    assert (base ^ n <= base ^ (k - 1)) by (apply Z.pow_le_mono_r; lia). lia. }
  destruct ((n =? k) && (V mod 2 ^ 64 <? base ^ (k - 1))) eqn:SAFE.
  { apply andb_true_iff in SAFE. rewrite Z.eqb_eq, Z.ltb_lt in SAFE. destruct SAFE as (-> & SAFE).
    destruct CASES as [(E & _)|(G & _)]; [lia|]. right. left. split; [lia|]. split; [|reflexivity].
    intros (k' & K' & (U1 & U2) & U3 & U4). assert (k' = k) by (apply (pow_between base (2 ^ 64)); lia). subst k'. lia. }
  rewrite (LC (V mod 2 ^ 64) MB). destruct (Z.ltb_spec L (V mod 2 ^ 64)) as [LI|LI].
  { right. left. assert (V mod 2 ^ 64 <= V) by (apply Z.mod_le; lia). split; [lia|]. split; [|reflexivity].
    intros (k' & _ & _ & _ & U4). lia. }
  rewrite (stored_value T neg rest (V mod 2 ^ 64) IT NS) by (fold L; lia).
  destruct CASES as [(E & S)|(G & ->)].
  - left. rewrite E in *. split; [lia|reflexivity].
  - right. right. split; [lia|]. split; [|reflexivity]. exists k. split; [lia|]. split; [lia|]. split; [lia|].
    split; [|lia]. apply andb_false_iff in SAFE. rewrite Z.eqb_neq, Z.ltb_ge in SAFE. lia.
Qed.
