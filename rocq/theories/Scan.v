(** Character loads and digit scanning loops. *)
From Verif Require Import Machine Config Chars ParseNumber WordLemmas SpecGrammar Swar.
Open Scope Z_scope.

(** Code units the parser can read without overflow: values of the type,
    except wchar_t values so negative that [c - L'0'] overflows int. *)
Definition okc (u : uc) (ch : Z) : Prop :=
  uc_min u <= ch <= uc_max u /\ (u = Wchar_s32 -> - 2 ^ 31 + 48 <= ch).

Lemma okc_bounds u ch : okc u ch ->
  match u with
  | Char_s => -128 <= ch <= 127
  | Char_u | Char8 => 0 <= ch <= 255
  | Wchar_u16 | Char16 => 0 <= ch <= 65535
  | Wchar_s32 => -2147483600 <= ch <= 2147483647
  | Wchar_u32 | Char32 => 0 <= ch <= 4294967295
  end.
Proof.
  intros [H1 H2]. destruct u; unfold uc_min, uc_max in H1; cbn [uc_signed uc_bits] in H1; cbn in H1; lia.
Qed.

Lemma digit_false ch : digit ch = false <-> ch < 48 \/ 57 < ch.
Proof. unfold digit. rewrite andb_false_iff, !Z.leb_gt. tauto. Qed.
Lemma digit_true ch : digit ch = true <-> 48 <= ch <= 57.
Proof. unfold digit. rewrite andb_true_iff, !Z.leb_le. tauto. Qed.
Lemma digit_dec ch : digit ch = (48 <=? ch) && (ch <=? 57).
Proof. reflexivity. Qed.

Lemma minus_zero_Ok u ch : okc u ch ->
  minus_zero u ch = Ok (match u with Wchar_u32 | Char32 => (ch - 48) mod 2 ^ 32 | _ => ch - 48 end).
Proof.
  intros H. apply okc_bounds in H. unfold minus_zero.
  destruct u; try reflexivity; rewrite chk32_Ok by lia; reflexivity.
Qed.

Lemma is_integer_spec u ch : okc u ch -> is_integer u ch = Ok (digit ch).
Proof.
  intros H. unfold is_integer. rewrite minus_zero_Ok by exact H. cbn [bind]. f_equal.
  assert (E : u32 (match u with Wchar_u32 | Char32 => (ch - 48) mod 2 ^ 32 | _ => ch - 48 end) = u32 (ch - 48)).
  { destruct u; try reflexivity; unfold u32; rewrite Z.mod_mod by lia; reflexivity. }
  rewrite E. clear E.
  apply okc_bounds in H.
  assert (R : -2147483600 <= ch <= 4294967295) by (destruct u; lia). clear H.
  unfold u32, digit. change (2 ^ 32) with 4294967296.
  destruct (Z_lt_ge_dec ch 48) as [L|G].
  - destruct (Z.leb_spec 48 ch); [lia|]. cbn [andb].
    rewrite <- (Z.mod_unique_pos (ch - 48) 4294967296 (-1) (ch - 48 + 4294967296)) by lia.
    apply Z.leb_gt. lia.
  - destruct (Z.leb_spec 48 ch); [|lia]. cbn [andb]. rewrite Z.mod_small by lia.
    destruct (Z.leb_spec ch 57), (Z.leb_spec (ch - 48) 9); try reflexivity; lia.
Qed.

Lemma minus_zero_digit u ch : digit ch = true -> minus_zero u ch = Ok (ch - 48).
Proof.
  intros H. apply digit_true in H. unfold minus_zero.
  destruct u; try (apply chk32_Ok; lia); f_equal; apply Z.mod_small; lia.
Qed.

(** ** Digit runs *)

Lemma digits_value_app a b : digits_value (a ++ b) = digits_value a * 10 ^ Z.of_nat (length b) + digits_value b.
Proof.
  unfold digits_value. rewrite fold_left_app. generalize (fold_left (fun a ch => 10 * a + (ch - 48)) a 0).
  induction b as [|x b IH]; intros z; [cbn; lia|].
  cbn [fold_left length]. rewrite IH, (IH (10 * 0 + (x - 48))).
  rewrite Nat2Z.inj_succ, Z.pow_succ_r by lia. ring.
Qed.
Lemma digits_value_cons x l : digits_value (x :: l) = (x - 48) * 10 ^ Z.of_nat (length l) + digits_value l.
Proof. change (x :: l) with ([x] ++ l). rewrite digits_value_app. f_equal. Qed.
Lemma digits_value_nil : digits_value [] = 0.
Proof. reflexivity. Qed.
Lemma digits_value_range l : all_digits l -> 0 <= digits_value l < 10 ^ Z.of_nat (length l).
Proof.
  induction 1 as [|x l Hx Hl IH]; [cbn; lia|]. rewrite digits_value_cons. apply digit_true in Hx.
  cbn [length]. rewrite Nat2Z.inj_succ, Z.pow_succ_r by lia.
  pose proof (Z.pow_pos_nonneg 10 (Z.of_nat (length l)) ltac:(lia) ltac:(lia)). nia.
Qed.

Lemma run_exists s : exists ds rest, run s ds rest.
Proof.
  induction s as [|x s (ds & rest & E & A & N)].
  - exists [], []. repeat split; constructor.
  - destruct (digit x) eqn:D.
    + exists (x :: ds), rest. split; [cbn; congruence|]. split; [constructor; assumption|exact N].
    + exists [], (x :: s). split; [reflexivity|]. split; [constructor|]. cbn. congruence.
Qed.
Lemma run_unique s d1 r1 d2 r2 : run s d1 r1 -> run s d2 r2 -> d1 = d2 /\ r1 = r2.
Proof.
  revert d1 d2. induction s as [|x s IH]; intros d1 d2 (E1 & A1 & N1) (E2 & A2 & N2).
  - destruct d1, d2; try discriminate. cbn in *. subst. auto.
  - destruct d1 as [|y1 d1], d2 as [|y2 d2]; cbn in E1, E2.
    + subst. auto.
    + subst r1. injection E2 as -> ->. inversion A2; subst. cbn in N1. contradiction.
    + subst r2. injection E1 as -> ->. inversion A1; subst. cbn in N2. contradiction.
    + injection E1 as -> E1. injection E2 as <- E2. inversion A1; inversion A2; subst.
      destruct (IH d1 d2) as [-> ->]; [repeat split; assumption|repeat split; assumption|]. auto.
Qed.
Lemma run_cons x s ds rest : digit x = true -> run s ds rest -> run (x :: s) (x :: ds) rest.
Proof. intros D (E & A & N). split; [cbn; congruence|]. split; [constructor; assumption|exact N]. Qed.
Lemma run_app a s ds rest : all_digits a -> run s ds rest -> run (a ++ s) (a ++ ds) rest.
Proof.
  intros D (E & A & N). split; [rewrite <- app_assoc; congruence|]. split; [apply Forall_app; auto|exact N].
Qed.
Lemma run_nil s : not_at_digit s -> run s [] s.
Proof. intros N. split; [reflexivity|]. split; [constructor|exact N]. Qed.
Lemma run_length s ds rest : run s ds rest -> length s = (length ds + length rest)%nat.
Proof. intros (-> & _). apply app_length. Qed.
Lemma run_ok u s ds rest : run s ds rest -> Forall (okc u) s -> Forall (okc u) ds /\ Forall (okc u) rest.
Proof. intros (-> & _) H. apply Forall_app in H. exact H. Qed.
Lemma run_firstn s ds rest : run s ds rest -> firstn (length s - length rest) s = ds.
Proof.
  intros R. rewrite (run_length _ _ _ R). destruct R as (-> & _).
  replace (length ds + length rest - length rest)%nat with (length ds) by lia.
  rewrite firstn_app, Nat.sub_diag, firstn_all, app_nil_r. reflexivity.
Qed.

(** Accumulation modulo 2^64. *)
Definition acc (i : Z) (ds : list Z) : Z := u64 (i * 10 ^ Z.of_nat (length ds) + digits_value ds).

Lemma acc_nil i : 0 <= i < 2 ^ 64 -> acc i [] = i.
Proof. intros H. unfold acc. rewrite digits_value_nil. cbn [length]. rewrite u64_small; lia. Qed.
Lemma u64_mul_add x k y : u64 (u64 x * k + y) = u64 (x * k + y).
Proof. unfold u64. rewrite (Z.add_mod (x mod 2 ^ 64 * k)), Z.mul_mod_idemp_l, <- Z.add_mod by lia. reflexivity. Qed.
Lemma u64_u64 x : u64 (u64 x) = u64 x.
Proof. unfold u64. apply Z.mod_mod. lia. Qed.
Lemma u64_add_l x y : u64 (u64 x + y) = u64 (x + y).
Proof. unfold u64. apply Z.add_mod_idemp_l. lia. Qed.
Lemma u64_add_r x y : u64 (x + u64 y) = u64 (x + y).
Proof. unfold u64. apply Z.add_mod_idemp_r. lia. Qed.
Lemma u64_mul_l x y : u64 (u64 x * y) = u64 (x * y).
Proof. unfold u64. apply Z.mul_mod_idemp_l. lia. Qed.
Lemma acc_app i a b : acc i (a ++ b) = acc (acc i a) b.
Proof.
  unfold acc. rewrite u64_mul_add, digits_value_app, app_length, Nat2Z.inj_add, Z.pow_add_r by lia. f_equal. ring.
Qed.
Lemma acc_cons i x ds : acc i (x :: ds) = acc (u64 (10 * i + (x - 48))) ds.
Proof.
  change (x :: ds) with ([x] ++ ds). rewrite acc_app. f_equal. unfold acc. f_equal.
  rewrite digits_value_cons, digits_value_nil. cbn [length]. change (10 ^ Z.of_nat 1) with 10. change (10 ^ Z.of_nat 0) with 1. lia.
Qed.
Lemma acc_range i ds : 0 <= acc i ds < 2 ^ 64.
Proof. apply u64_range. Qed.

Lemma head_notdigit ch s : not_at_digit (ch :: s) -> digit ch = false.
Proof. cbn. destruct (digit ch); congruence. Qed.

Lemma int_digit_loop_spec u : forall ds s rest i,
  Forall (okc u) s -> run s ds rest -> 0 <= i < 2 ^ 64 ->
  int_digit_loop u s i = Ok (rest, acc i ds).
Proof.
  induction ds as [|x ds IH]; intros s rest i OK R Hi.
  - rewrite acc_nil by exact Hi. destruct R as (E & _ & N). cbn [app] in E. subst s.
    destruct rest as [|ch rest]; [reflexivity|]. cbn [int_digit_loop].
    inversion OK; subst. rewrite is_integer_spec by assumption. cbn [bind].
    rewrite (head_notdigit _ _ N). reflexivity.
  - destruct R as (E & A & N). cbn [app] in E. subst s. inversion OK; subst. inversion A; subst.
    cbn [int_digit_loop]. rewrite is_integer_spec by assumption. cbn [bind].
    match goal with H : digit x = true |- _ => rewrite H; rewrite (minus_zero_digit u x H) end. cbn [bind].
    rewrite u64_add_l, u64_add_r.
    rewrite acc_cons. apply IH; [assumption|repeat split; assumption|apply u64_range].
Qed.

Lemma peel_loop u p i : peel u p i (int_digit_loop u) = int_digit_loop u p i.
Proof. destruct p; reflexivity. Qed.
Lemma peel_ext u p i k k' : (forall p i, k p i = k' p i) -> peel u p i k = peel u p i k'.
Proof.
  intros H. destruct p as [|ch p]; [reflexivity|]. cbn [peel].
  destruct (is_integer u ch) as [b|]; [|reflexivity]. cbn [bind]. destruct b; [|reflexivity].
  destruct (minus_zero u ch) as [d|]; [|reflexivity]. cbn [bind]. apply H.
Qed.

Lemma scan_integer_spec u s ds rest : Forall (okc u) s -> run s ds rest ->
  scan_integer u s = Ok (rest, acc 0 ds).
Proof.
  intros OK R. rewrite <- (int_digit_loop_spec u ds s rest 0 OK R ltac:(lia)).
  destruct s as [|ch s]; [reflexivity|]. cbn [scan_integer int_digit_loop].
  destruct (is_integer u ch) as [b|]; [|reflexivity]. cbn [bind]. destruct b; [|reflexivity].
  destruct (minus_zero u ch) as [d|]; [|reflexivity]. cbn [bind].
  replace (u64 (u64 (10 * 0) + u64 d)) with (u64 d) by (rewrite u64_add_l, u64_add_r; reflexivity).
  rewrite <- peel_loop. apply peel_ext. intros p1 i1.
  rewrite <- peel_loop. apply peel_ext. intros p2 i2.
  rewrite <- peel_loop. apply peel_ext. intros p3 i3.
  rewrite <- peel_loop. apply peel_ext. intros p4 i4. reflexivity.
Qed.

Lemma frac_digit_loop_spec u : forall ds s rest i,
  Forall (okc u) s -> run s ds rest -> 0 <= i < 2 ^ 64 ->
  frac_digit_loop u s i = Ok (rest, acc i ds).
Proof.
  induction ds as [|x ds IH]; intros s rest i OK R Hi.
  - rewrite acc_nil by exact Hi. destruct R as (E & _ & N). cbn [app] in E. subst s.
    destruct rest as [|ch rest]; [reflexivity|]. cbn [frac_digit_loop].
    inversion OK; subst. rewrite is_integer_spec by assumption. cbn [bind].
    rewrite (head_notdigit _ _ N). reflexivity.
  - destruct R as (E & A & N). cbn [app] in E. subst s. inversion OK; subst. inversion A; subst.
    cbn [frac_digit_loop]. rewrite is_integer_spec by assumption. cbn [bind].
    match goal with H : digit x = true |- _ => rewrite H; rewrite (minus_zero_digit u x H); apply digit_true in H end. cbn [bind].
    rewrite (u8_small (x - 48)) by lia.
    rewrite u64_add_l, (Z.mul_comm i 10).
    rewrite acc_cons. apply IH; [assumption|repeat split; assumption|apply u64_range].
Qed.

(** ** Loads *)

Lemma land_byte v k : 0 <= k -> Z.land v (255 * 2 ^ k) = ((v / 2 ^ k) mod 256) * 2 ^ k.
Proof.
  intros Hk. pose proof (Z.pow_pos_nonneg 2 k ltac:(lia) Hk) as P.
  pose proof (Z.mod_pos_bound v (2 ^ k) P).
  replace v with (v mod 2 ^ k + v / 2 ^ k * 2 ^ k) at 1 by (pose proof (Z.div_mod v (2 ^ k)); lia).
  replace (255 * 2 ^ k) with (0 + 255 * 2 ^ k) by lia.
  rewrite land_split by lia. rewrite Z.land_0_r. change 255 with (2 ^ 8 - 1). rewrite land_ones_mod by lia.
  change (2 ^ 8) with 256. lia.
Qed.

Lemma byteswap_le b0 b1 b2 b3 b4 b5 b6 b7 :
  byte b0 -> byte b1 -> byte b2 -> byte b3 -> byte b4 -> byte b5 -> byte b6 -> byte b7 ->
  byteswap (le_word 8 [b7; b6; b5; b4; b3; b2; b1; b0]) = le_word 8 [b0; b1; b2; b3; b4; b5; b6; b7].
Proof.
  unfold byte. intros.
  set (v := le_word 8 [b7; b6; b5; b4; b3; b2; b1; b0]).
  assert (EV : v = b7 + b6 * 2 ^ 8 + b5 * 2 ^ 16 + b4 * 2 ^ 24 + b3 * 2 ^ 32 + b2 * 2 ^ 40 + b1 * 2 ^ 48 + b0 * 2 ^ 56)
    by (unfold v; cbn [le_word]; lia).
  unfold byteswap. cbv zeta beta.
  change 0xFF00000000000000 with (255 * 2 ^ 56). change 0x00FF000000000000 with (255 * 2 ^ 48).
  change 0x0000FF0000000000 with (255 * 2 ^ 40). change 0x000000FF00000000 with (255 * 2 ^ 32).
  change 0x00000000FF000000 with (255 * 2 ^ 24). change 0x0000000000FF0000 with (255 * 2 ^ 16).
  change 0x000000000000FF00 with (255 * 2 ^ 8). change 0x00000000000000FF with (255 * 2 ^ 0).
  rewrite !land_byte by lia.
  assert (D : forall k b r h, 0 <= k -> 0 <= b < 256 -> 0 <= r < 2 ^ k -> v = r + b * 2 ^ k + h * 256 * 2 ^ k -> (v / 2 ^ k) mod 256 = b).
  { intros k b r h Hk Hb Hr E. rewrite <- (Z.div_unique_pos v (2 ^ k) (b + h * 256) r) by lia.
    symmetry. apply (Z.mod_unique_pos _ _ h); lia. }
  rewrite (D 56 b0 (b7 + b6 * 2 ^ 8 + b5 * 2 ^ 16 + b4 * 2 ^ 24 + b3 * 2 ^ 32 + b2 * 2 ^ 40 + b1 * 2 ^ 48) 0) by lia.
  rewrite (D 48 b1 (b7 + b6 * 2 ^ 8 + b5 * 2 ^ 16 + b4 * 2 ^ 24 + b3 * 2 ^ 32 + b2 * 2 ^ 40) b0) by lia.
  rewrite (D 40 b2 (b7 + b6 * 2 ^ 8 + b5 * 2 ^ 16 + b4 * 2 ^ 24 + b3 * 2 ^ 32) (b1 + b0 * 2 ^ 8)) by lia.
  rewrite (D 32 b3 (b7 + b6 * 2 ^ 8 + b5 * 2 ^ 16 + b4 * 2 ^ 24) (b2 + b1 * 2 ^ 8 + b0 * 2 ^ 16)) by lia.
  rewrite (D 24 b4 (b7 + b6 * 2 ^ 8 + b5 * 2 ^ 16) (b3 + b2 * 2 ^ 8 + b1 * 2 ^ 16 + b0 * 2 ^ 24)) by lia.
  rewrite (D 16 b5 (b7 + b6 * 2 ^ 8) (b4 + b3 * 2 ^ 8 + b2 * 2 ^ 16 + b1 * 2 ^ 24 + b0 * 2 ^ 32)) by lia.
  rewrite (D 8 b6 b7 (b5 + b4 * 2 ^ 8 + b3 * 2 ^ 16 + b2 * 2 ^ 24 + b1 * 2 ^ 32 + b0 * 2 ^ 40)) by lia.
  rewrite (D 0 b7 0 (b6 + b5 * 2 ^ 8 + b4 * 2 ^ 16 + b3 * 2 ^ 24 + b2 * 2 ^ 32 + b1 * 2 ^ 40 + b0 * 2 ^ 48)) by lia.
  clear D EV. clearbody v. clear v.
  rewrite !Z.shiftr_div_pow2, !Z.shiftl_mul_pow2 by lia.
  assert (S : forall b k s, 0 <= s <= k -> b * 2 ^ k / 2 ^ s = b * 2 ^ (k - s)).
  { intros b k s Hs. replace k with ((k - s) + s) at 1 by lia. rewrite Z.pow_add_r, Z.mul_assoc, Z.div_mul by lia. reflexivity. }
  rewrite !S by lia. clear S. rewrite <- !Z.mul_assoc, <- !Z.pow_add_r by lia.
  cbn [Z.sub Z.add Z.opp Z.pos_sub Pos.add Pos.succ Pos.pred_double Pos.add_carry Z.double Z.succ_double Z.pred_double].
  rewrite !u64_small by lia.
  change (b0 * 2 ^ 0) with (b0 * 1).
  rewrite (lor_add_disjoint (b0 * 1) b1 8) by lia.
  rewrite (lor_add_disjoint _ b2 16) by lia.
  rewrite (lor_add_disjoint _ b3 24) by lia.
  rewrite (lor_add_disjoint _ b4 32) by lia.
  rewrite (lor_add_disjoint _ b5 40) by lia.
  rewrite (lor_add_disjoint _ b6 48) by lia.
  rewrite (lor_add_disjoint _ b7 56) by lia.
  cbn [le_word]. lia.
Qed.

Lemma byteswap32_le b0 b1 b2 b3 :
  byte b0 -> byte b1 -> byte b2 -> byte b3 ->
  byteswap_32 (le_word 8 [b3; b2; b1; b0]) = le_word 8 [b0; b1; b2; b3].
Proof.
  unfold byte. intros.
  set (v := le_word 8 [b3; b2; b1; b0]).
  assert (EV : v = b3 + b2 * 2 ^ 8 + b1 * 2 ^ 16 + b0 * 2 ^ 24) by (unfold v; cbn [le_word]; lia).
  unfold byteswap_32. change 0x0000FF00 with (255 * 2 ^ 8). change 0x00FF0000 with (255 * 2 ^ 16).
  rewrite !land_byte by lia. rewrite !Z.shiftr_div_pow2, !Z.shiftl_mul_pow2 by lia.
  rewrite <- (Z.div_unique_pos v (2 ^ 24) b0 (b3 + b2 * 2 ^ 8 + b1 * 2 ^ 16)) by lia.
  rewrite <- (Z.div_unique_pos v (2 ^ 8) (b2 + b1 * 2 ^ 8 + b0 * 2 ^ 16) b3) by lia.
  rewrite <- (Z.div_unique_pos (b2 + b1 * 2 ^ 8 + b0 * 2 ^ 16) (2 ^ 8) (b1 + b0 * 2 ^ 8) b2) by lia.
  rewrite <- (Z.mod_unique_pos (b1 + b0 * 2 ^ 8) 256 b0 b1) by lia.
  assert (E1 : u32 (v * 2 ^ 8) = b3 * 2 ^ 8 + b2 * 2 ^ 16 + b1 * 2 ^ 24).
  { unfold u32. symmetry. apply (Z.mod_unique_pos _ _ b0); lia. }
  assert (E2 : u32 (v * 2 ^ 24) = b3 * 2 ^ 24).
  { unfold u32. symmetry. apply (Z.mod_unique_pos _ _ (b2 + b1 * 2 ^ 8 + b0 * 2 ^ 16)); lia. }
  rewrite E1, E2.
  rewrite <- (Z.div_unique_pos (b3 * 2 ^ 8 + b2 * 2 ^ 16 + b1 * 2 ^ 24) (2 ^ 16) (b2 + b1 * 2 ^ 8) (b3 * 2 ^ 8)) by lia.
  rewrite <- (Z.mod_unique_pos (b2 + b1 * 2 ^ 8) 256 b1 b2) by lia.
  rewrite (lor_add_disjoint b0 b1 8) by lia.
  rewrite (lor_add_disjoint _ b2 16) by lia.
  rewrite (lor_add_disjoint _ b3 24) by lia.
  cbn [le_word]. lia.
Qed.

Lemma bytes_map l : Forall byte (map u8 l).
Proof. apply Forall_forall. intros x H. apply in_map_iff in H. destruct H as (y & <- & _). apply u8_range. Qed.

Lemma take_Ok n p : (n <= length p)%nat -> take n p = Ok (firstn n p).
Proof. intros H. unfold take. apply Nat.leb_le in H. rewrite H. reflexivity. Qed.
Lemma advance_Ok n p : (n <= length p)%nat -> advance n p = Ok (skipn n p).
Proof. intros H. unfold advance. apply Nat.leb_le in H. rewrite H. reflexivity. Qed.

Lemma list_len8 {A} (l : list A) : length l = 8%nat ->
  exists a b c d e f g h, l = [a; b; c; d; e; f; g; h].
Proof.
  intros H. do 9 (destruct l as [|? l]; try discriminate H). do 8 eexists. reflexivity.
Qed.
Lemma list_len4 {A} (l : list A) : length l = 4%nat -> exists a b c d, l = [a; b; c; d].
Proof. intros H. do 5 (destruct l as [|? l]; try discriminate H). do 4 eexists. reflexivity. Qed.

Lemma uc_char_8 u : uc_is_char u = true -> uc_bits u = 8 /\ uc_size u = 1.
Proof. destruct u; cbn; try discriminate; auto. Qed.

Lemma read8_spec c u p : (8 <= length p)%nat -> read8_to_u64 c u p = Ok (le_word 8 (map u8 (firstn 8 p))).
Proof.
  intros L. unfold read8_to_u64. rewrite take_Ok by exact L. cbn [bind].
  destruct (in_constexpr c || negb (uc_is_char u)) eqn:E; [reflexivity|].
  apply orb_false_iff in E. destruct E as [_ E]. apply negb_false_iff in E.
  destruct (uc_char_8 u E) as [E8 E1].
  assert (L8 : length (firstn 8 p) = 8%nat) by (rewrite firstn_length; lia).
  unfold mem_word. rewrite E8, E1, L8. change (Z.to_nat (8 / 1) - 8)%nat with 0%nat. cbn [repeat]. rewrite app_nil_r.
  change (fun x => x mod 2 ^ 8) with u8.
  destruct (big_endian c); [|reflexivity]. f_equal.
  pose proof (bytes_map (firstn 8 p)) as B.
  assert (LM : length (map u8 (firstn 8 p)) = 8%nat) by (rewrite map_length; exact L8).
  destruct (list_len8 _ LM) as (b0 & b1 & b2 & b3 & b4 & b5 & b6 & b7 & EL). rewrite EL in *. clear EL. cbn [rev app].
  repeat match goal with H : Forall _ (_ :: _) |- _ => inversion H; clear H; subst end.
  apply byteswap_le; assumption.
Qed.

Lemma read4_spec c u p : (4 <= length p)%nat -> read4_to_u32 c u p = Ok (le_word 8 (map u8 (firstn 4 p))).
Proof.
  intros L. unfold read4_to_u32. rewrite take_Ok by exact L. cbn [bind].
  destruct (in_constexpr c || negb (uc_is_char u)) eqn:E; [reflexivity|].
  apply orb_false_iff in E. destruct E as [_ E]. apply negb_false_iff in E.
  destruct (uc_char_8 u E) as [E8 E1].
  assert (L8 : length (firstn 4 p) = 4%nat) by (rewrite firstn_length; lia).
  unfold mem_word. rewrite E8, E1, L8. change (Z.to_nat (4 / 1) - 4)%nat with 0%nat. cbn [repeat]. rewrite app_nil_r.
  change (fun x => x mod 2 ^ 8) with u8.
  destruct (big_endian c); [|reflexivity]. f_equal.
  pose proof (bytes_map (firstn 4 p)) as B.
  assert (LM : length (map u8 (firstn 4 p)) = 4%nat) by (rewrite map_length; exact L8).
  destruct (list_len4 _ LM) as (b0 & b1 & b2 & b3 & EL). rewrite EL in *. clear EL. cbn [rev app].
  repeat match goal with H : Forall _ (_ :: _) |- _ => inversion H; clear H; subst end.
  apply byteswap32_le; assumption.
Qed.

(** ** Blocks of eight digits *)

Lemma map_u8_digits l : all_digits l -> map u8 l = l.
Proof.
  induction 1 as [|x l Hx Hl IH]; [reflexivity|]. cbn [map]. rewrite IH. apply digit_true in Hx.
  rewrite u8_small by lia. reflexivity.
Qed.

Lemma u8_digit_char u ch : uc_bits u = 8 -> okc u ch -> digit (u8 ch) = digit ch.
Proof.
  intros E H. apply okc_bounds in H. destruct u; try discriminate E; try (rewrite u8_small by lia; reflexivity).
  destruct (Z_lt_ge_dec ch 0) as [L|G]; [|rewrite u8_small by lia; reflexivity].
  unfold u8. rewrite <- (Z.mod_unique_pos ch (2 ^ 8) (-1) (ch + 256)) by lia.
  transitivity false; [apply digit_false; lia|symmetry; apply digit_false; lia].
Qed.

Lemma u8_digits_char u l : uc_bits u = 8 -> Forall (okc u) l -> (all_digits (map u8 l) <-> all_digits l).
Proof.
  intros E H. unfold all_digits. induction H as [|x l Hx Hl IH]; [split; constructor|].
  cbn [map]. rewrite !Forall_cons_iff, IH, (u8_digit_char u) by assumption. reflexivity.
Qed.

Lemma value_u8 l : all_digits l -> digits_value (map u8 l) = digits_value l.
Proof. intros H. rewrite map_u8_digits by exact H. reflexivity. Qed.

Lemma parse_eight_list l : length l = 8%nat -> all_digits l ->
  parse_eight_digits_unrolled_val (le_word 8 l) = digits_value l.
Proof.
  intros L A. destruct (list_len8 l L) as (? & ? & ? & ? & ? & ? & ? & ? & ->). apply parse_eight_spec. exact A.
Qed.
Lemma parse_four_list l : length l = 4%nat -> all_digits l ->
  parse_four_digits_unrolled (le_word 8 l) = digits_value l.
Proof.
  intros L A. destruct (list_len4 l L) as (? & ? & ? & ? & ->). apply parse_four_spec. exact A.
Qed.

Lemma acc_block i l k : Z.of_nat (length l) = k -> u64 (u64 (i * 10 ^ k) + digits_value l) = acc i l.
Proof. intros <-. rewrite u64_add_l. reflexivity. Qed.

Lemma split_at {A} n (l : list A) : (n <= length l)%nat ->
  l = firstn n l ++ skipn n l /\ length (firstn n l) = n.
Proof. intros H. split; [symmetry; apply firstn_skipn|]. rewrite firstn_length. lia. Qed.

Lemma Forall_firstn {A} (P : A -> Prop) n l : Forall P l -> Forall P (firstn n l).
Proof. intros H. rewrite <- (firstn_skipn n l) in H. apply Forall_app in H. apply H. Qed.
Lemma Forall_skipn {A} (P : A -> Prop) n l : Forall P l -> Forall P (skipn n l).
Proof. intros H. rewrite <- (firstn_skipn n l) in H. apply Forall_app in H. apply H. Qed.

(** A scanning step: some digits are consumed and accumulated. *)
Definition scanned (s : list Z) (i : Z) (r : res (list Z * Z)) : Prop :=
  exists ds rest, s = ds ++ rest /\ all_digits ds /\ r = Ok (rest, acc i ds).

Lemma scanned_refl s i : 0 <= i < 2 ^ 64 -> scanned s i (Ok (s, i)).
Proof. intros H. exists [], s. rewrite acc_nil by exact H. repeat split. constructor. Qed.

Lemma scanned_block n s i r : (n <= length s)%nat -> all_digits (firstn n s) ->
  scanned (skipn n s) (acc i (firstn n s)) r -> scanned s i r.
Proof.
  intros L A (ds & rest & E & D & R). exists (firstn n s ++ ds), rest.
  split; [rewrite <- app_assoc, <- E; symmetry; apply firstn_skipn|].
  split; [apply Forall_app; auto|]. rewrite R, acc_app. reflexivity.
Qed.

Lemma swar_loop_spec c u : uc_is_char u = true -> forall fuel p i,
  (length p < fuel)%nat -> Forall (okc u) p -> 0 <= i < 2 ^ 64 -> scanned p i (swar_loop fuel c u p i).
Proof.
  intros U. destruct (uc_char_8 u U) as [E8 _].
  induction fuel as [|fuel IH]; intros p i F OK Hi; [lia|]. cbn [swar_loop].
  unfold remaining. destruct (Z.leb_spec 8 (Z.of_nat (length p))) as [L|L]; [|apply scanned_refl; exact Hi].
  assert (L' : (8 <= length p)%nat) by lia.
  rewrite read8_spec by exact L'. cbn [bind].
  pose proof (bytes_map (firstn 8 p)) as B.
  assert (LM : length (map u8 (firstn 8 p)) = 8%nat) by (rewrite map_length, firstn_length; lia).
  pose proof (eight_digits_spec _ LM B) as S.
  pose proof (u8_digits_char u (firstn 8 p) E8 (Forall_firstn _ 8 p OK)) as UD.
  destruct (is_made_of_eight_digits_fast (le_word 8 (map u8 (firstn 8 p)))).
  - assert (D : all_digits (firstn 8 p)) by (apply UD, S; reflexivity).
    rewrite map_u8_digits by exact D. rewrite advance_Ok by exact L'. cbn [bind].
    assert (L8 : length (firstn 8 p) = 8%nat) by (rewrite firstn_length; lia).
    rewrite parse_eight_list by assumption. change 100000000 with (10 ^ 8).
    rewrite (acc_block i (firstn 8 p) 8) by lia.
    apply (scanned_block 8); [exact L'|exact D|]. apply IH.
    + rewrite skipn_length. lia.
    + apply Forall_skipn. exact OK.
    + apply acc_range.
  - apply scanned_refl. exact Hi.
Qed.

Lemma sse2_lane_spec x : 0 <= x <= 65535 -> sse2_lane_bad x = negb (digit x).
Proof.
  intros H. unfold sse2_lane_bad, to_signed. change (2 ^ 16) with 65536. change (2 ^ (16 - 1)) with 32768.
  destruct (Z_lt_ge_dec x 32816) as [L|G].
  - rewrite Z.mod_small by lia. destruct (digit x) eqn:D; [apply digit_true in D|apply digit_false in D]; cbn [negb].
    + destruct (Z.ltb_spec (x + 32720) 32768); [lia|]. apply Z.ltb_ge. lia.
    + destruct (Z.ltb_spec (x + 32720) 32768); apply Z.ltb_lt; lia.
  - rewrite <- (Z.mod_unique_pos (x + 32720) 65536 1 (x + 32720 - 65536)) by lia.
    assert (D : digit x = false) by (apply digit_false; lia). rewrite D. cbn [negb].
    destruct (Z.ltb_spec (x + 32720 - 65536) 32768); apply Z.ltb_lt; lia.
Qed.

Lemma neon_lane_spec x : 0 <= x <= 65535 -> neon_lane_ok x = digit x.
Proof.
  intros H. unfold neon_lane_ok, u16. change (2 ^ 16) with 65536.
  destruct (digit x) eqn:D; [apply digit_true in D|apply digit_false in D].
  - rewrite Z.mod_small by lia. apply Z.ltb_lt. lia.
  - destruct D as [D|D].
    + rewrite <- (Z.mod_unique_pos (x - 48) 65536 (-1) (x - 48 + 65536)) by lia. apply Z.ltb_ge. lia.
    + rewrite Z.mod_small by lia. apply Z.ltb_ge. lia.
Qed.

Lemma packus_digit x : digit x = true -> packus x = x.
Proof.
  intros H. apply digit_true in H. unfold packus. rewrite to_signed_small by (cbn; lia). lia.
Qed.

Lemma simd_read8_digits c l : all_digits l -> simd_read8_to_u64 c l = le_word 8 l.
Proof.
  intros A. unfold simd_read8_to_u64.
  assert (P : map packus l = l).
  { induction A as [|x l Hx Hl IH]; [reflexivity|]. cbn [map]. rewrite IH, packus_digit by exact Hx. reflexivity. }
  destruct (simd c); rewrite ?P, ?map_u8_digits by exact A; reflexivity.
Qed.

Lemma simd_good c l : Forall (okc Char16) l ->
  match simd c with Neon => forallb neon_lane_ok l | _ => negb (existsb sse2_lane_bad l) end = forallb digit l.
Proof.
  intros OK.
  assert (H1 : forallb neon_lane_ok l = forallb digit l).
  { induction OK as [|x l Hx Hl IH]; [reflexivity|]. cbn [forallb]. apply okc_bounds in Hx.
    rewrite IH, neon_lane_spec by lia. reflexivity. }
  assert (H2 : negb (existsb sse2_lane_bad l) = forallb digit l).
  { clear H1. induction OK as [|x l Hx Hl IH]; [reflexivity|]. cbn [forallb existsb]. apply okc_bounds in Hx.
    rewrite negb_orb, IH, sse2_lane_spec, negb_involutive by lia. reflexivity. }
  destruct (simd c); assumption.
Qed.

Lemma forallb_digit l : forallb digit l = true <-> all_digits l.
Proof. unfold all_digits. rewrite forallb_forall, Forall_forall. reflexivity. Qed.

Lemma simd_loop_spec c : forall fuel p i,
  (length p < fuel)%nat -> Forall (okc Char16) p -> 0 <= i < 2 ^ 64 -> scanned p i (simd_loop fuel c p i).
Proof.
  induction fuel as [|fuel IH]; intros p i F OK Hi; [lia|]. cbn [simd_loop].
  unfold remaining. destruct (Z.leb_spec 8 (Z.of_nat (length p))) as [L|L]; [|apply scanned_refl; exact Hi].
  assert (L' : (8 <= length p)%nat) by lia.
  unfold simd_parse_if_eight_digits_unrolled.
  destruct (in_constexpr c); [cbn [bind]; apply scanned_refl; exact Hi|].
  rewrite take_Ok by exact L'. cbn [bind].
  rewrite (simd_good c (firstn 8 p) (Forall_firstn _ 8 p OK)).
  destruct (forallb digit (firstn 8 p)) eqn:D; [|apply scanned_refl; exact Hi].
  apply forallb_digit in D. rewrite simd_read8_digits by exact D.
  assert (L8 : length (firstn 8 p) = 8%nat) by (rewrite firstn_length; lia).
  rewrite parse_eight_list by assumption. change 100000000 with (10 ^ 8).
  rewrite (acc_block i (firstn 8 p) 8) by lia. rewrite advance_Ok by exact L'. cbn [bind].
  apply (scanned_block 8); [exact L'|exact D|]. apply IH.
  - rewrite skipn_length. lia.
  - apply Forall_skipn. exact OK.
  - apply acc_range.
Qed.

Lemma uc_char16_eq u : uc_is_char16 u = true -> u = Char16.
Proof. destruct u; cbn; congruence. Qed.

Lemma loop_parse_spec c u p i : Forall (okc u) p -> 0 <= i < 2 ^ 64 ->
  scanned p i (loop_parse_if_eight_digits c u p i).
Proof.
  intros OK Hi. unfold loop_parse_if_eight_digits. destruct (uc_is_char u) eqn:U.
  - destruct (swar_loop_spec c u U (S (length p)) p i ltac:(lia) OK Hi) as (ds & rest & E & A & R).
    rewrite R. cbn [bind].
    assert (BASE : scanned p i (Ok (rest, acc i ds))) by (exists ds, rest; auto).
    destruct (is_clang c); [|exact BASE].
    unfold remaining. destruct (Z.leb_spec 4 (Z.of_nat (length rest))) as [L|L]; [|exact BASE].
    assert (L' : (4 <= length rest)%nat) by lia.
    rewrite read4_spec by exact L'. cbn [bind].
    pose proof (bytes_map (firstn 4 rest)) as B.
    assert (LM : length (map u8 (firstn 4 rest)) = 4%nat) by (rewrite map_length, firstn_length; lia).
    pose proof (four_digits_spec _ LM B) as S. destruct (uc_char_8 u U) as [E8 _].
    assert (OKR : Forall (okc u) rest) by (rewrite E in OK; apply Forall_app in OK; apply OK).
    pose proof (u8_digits_char u (firstn 4 rest) E8 (Forall_firstn _ 4 rest OKR)) as UD.
    destruct (is_made_of_four_digits_fast (le_word 8 (map u8 (firstn 4 rest)))); [|exact BASE].
    assert (D : all_digits (firstn 4 rest)) by (apply UD, S; reflexivity).
    rewrite map_u8_digits by exact D. rewrite advance_Ok by exact L'. cbn [bind].
    assert (L4 : length (firstn 4 rest) = 4%nat) by (rewrite firstn_length; lia).
    rewrite parse_four_list by assumption. change 10000 with (10 ^ 4).
    rewrite (acc_block _ (firstn 4 rest) 4) by lia.
    exists (ds ++ firstn 4 rest), (skipn 4 rest).
    split; [rewrite <- app_assoc, firstn_skipn; exact E|]. split; [apply Forall_app; auto|].
    rewrite acc_app. reflexivity.
  - destruct (has_simd_opt c u) eqn:HS; [|apply scanned_refl; exact Hi].
    unfold has_simd_opt in HS. apply andb_true_iff in HS. destruct HS as [_ HS]. apply uc_char16_eq in HS. subst u.
    apply simd_loop_spec; [lia|exact OK|exact Hi].
Qed.

(** Fraction digits: blocks, then single digits. *)
Lemma fraction_scan c u s ds rest i : Forall (okc u) s -> run s ds rest -> 0 <= i < 2 ^ 64 ->
  (let* '(p, i) := loop_parse_if_eight_digits c u s i in frac_digit_loop u p i) = Ok (rest, acc i ds).
Proof.
  intros OK R Hi. destruct (loop_parse_spec c u s i OK Hi) as (d1 & r1 & E & A & ->). cbn [bind].
  assert (OKR : Forall (okc u) r1) by (rewrite E in OK; apply Forall_app in OK; apply OK).
  destruct (run_exists r1) as (d2 & r2 & R2).
  rewrite (frac_digit_loop_spec u d2 r1 r2 _ OKR R2 (acc_range _ _)).
  pose proof (run_app d1 r1 d2 r2 A R2) as R3. rewrite <- E in R3.
  destruct (run_unique _ _ _ _ _ R R3) as [-> ->]. rewrite acc_app. reflexivity.
Qed.
