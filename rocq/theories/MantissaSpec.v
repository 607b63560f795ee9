(** parse_mantissa reads the significant digits of the number into a big
    integer: all of them, or the first max_digits and a sticky one. *)
From Verif Require Import Machine Config Tables Chars Format ParseNumber Bigint DigitComp WordLemmas
  SpecFloat SpecGrammar Swar Scan BigintSpec.
Open Scope Z_scope.

Definition zero_ch (ch : Z) : bool := ch =? 48.
Definition zeros (l : list Z) : Prop := Forall (fun ch => ch = 48) l.
Definition some_nonzero (l : list Z) : bool := existsb (fun ch => negb (ch =? 48)) l.

Lemma some_nonzero_app a b : some_nonzero (a ++ b) = some_nonzero a || some_nonzero b.
Proof. apply existsb_app. Qed.

Lemma zeros_nonzero l : zeros l <-> some_nonzero l = false.
Proof.
  unfold zeros, some_nonzero. induction l as [|x l IH]; [split; [reflexivity|constructor]|].
  cbn [existsb]. rewrite Forall_cons_iff, orb_false_iff, IH, negb_false_iff, Z.eqb_eq. reflexivity.
Qed.

Lemma zeros_value l : zeros l -> digits_value l = 0.
Proof.
  induction 1 as [|x l Hx Hl IH]; [reflexivity|]. rewrite digits_value_cons, IH, Hx. lia.
Qed.

Lemma nonzero_value l : all_digits l -> some_nonzero l = true -> 0 < digits_value l.
Proof.
  induction 1 as [|x l Hx Hl IH]; [discriminate|]. unfold some_nonzero. cbn [existsb]. rewrite orb_true_iff, digits_value_cons.
  pose proof (digits_value_range l Hl). pose proof (Z.pow_pos_nonneg 10 (Z.of_nat (length l)) ltac:(lia) ltac:(lia)).
  apply digit_true in Hx. intros [A|A].
  - apply negb_true_iff, Z.eqb_neq in A. nia.
  - specialize (IH A). nia.
Qed.

Lemma le_word_inj w : 0 <= w -> forall l l', length l = length l' ->
  Forall (fun x => 0 <= x < 2 ^ w) l -> Forall (fun x => 0 <= x < 2 ^ w) l' ->
  le_word w l = le_word w l' -> l = l'.
Proof.
  intros Hw. induction l as [|x l IH]; intros [|y l'] HL F F' E; try discriminate; [reflexivity|].
  cbn [le_word] in E. inversion F as [|? ? Fx Fl]; subst. inversion F' as [|? ? Fy Fl']; subst.
  assert (P : 0 < 2 ^ w) by (apply Z.pow_pos_nonneg; lia).
  assert (E2 : le_word w l = le_word w l').
  { destruct (Z.lt_trichotomy (le_word w l) (le_word w l')) as [G|[G|G]]; [exfalso; nia|exact G|exfalso; nia]. }
  assert (x = y) by nia. subst y.
  f_equal. apply IH; auto.
Qed.

Lemma int_cmp_zeros_word u : int_cmp_zeros u = le_word (uc_bits u) (repeat 48 (Z.to_nat (int_cmp_len u))).
Proof. destruct u; reflexivity. Qed.

Lemma int_cmp_len_range u : 2 <= int_cmp_len u <= 8.
Proof. destruct u; cbn; lia. Qed.

Lemma rev_repeat {A} (x : A) n : rev (repeat x n) = repeat x n.
Proof.
  induction n as [|n IH]; [reflexivity|]. cbn [repeat rev]. rewrite IH. symmetry. apply repeat_cons.
Qed.

Lemma zero_word c u l : Z.of_nat (length l) = int_cmp_len u -> all_digits l ->
  (mem_word c u 8 l =? int_cmp_zeros u) = negb (some_nonzero l).
Proof.
  intros HL A. unfold mem_word. fold (int_cmp_len u). pose proof (int_cmp_len_range u) as R.
  replace (Z.to_nat (int_cmp_len u) - length l)%nat with 0%nat by lia. cbn [repeat]. rewrite app_nil_r.
  assert (M : map (fun x => x mod 2 ^ uc_bits u) l = l).
  { clear - A. induction A as [|x l Hx Hl IH]; [reflexivity|]. cbn [map]. rewrite IH. f_equal.
    apply digit_true in Hx. apply Z.mod_small. destruct u; cbn; lia. }
  rewrite M. rewrite int_cmp_zeros_word. set (n := Z.to_nat (int_cmp_len u)).
  set (l' := if big_endian c then rev l else l).
  assert (L' : length l' = n) by (unfold l'; destruct (big_endian c); rewrite ?rev_length; unfold n; lia).
  assert (F : Forall (fun x => 0 <= x < 2 ^ uc_bits u) l').
  { assert (F0 : Forall (fun x => 0 <= x < 2 ^ uc_bits u) l).
    { eapply Forall_impl; [|exact A]. intros x Hx. apply digit_true in Hx. destruct u; cbn; lia. }
    unfold l'. destruct (big_endian c); [apply Forall_rev|]; exact F0. }
  assert (F' : Forall (fun x => 0 <= x < 2 ^ uc_bits u) (repeat 48 n)).
  { apply Forall_forall. intros x Hx. apply repeat_spec in Hx. subst x. destruct u; cbn; lia. }
  assert (EQ : l = repeat 48 n <-> some_nonzero l = false).
  { rewrite <- zeros_nonzero. unfold zeros. split.
    - intros ->. apply Forall_forall. intros x Hx. apply repeat_spec in Hx. exact Hx.
    - intros Z. replace n with (length l) by (unfold n; lia). clear - Z.
      induction Z as [|x l Hx Hl IH]; [reflexivity|]. cbn [length repeat]. congruence. }
  destruct (Z.eqb_spec (le_word (uc_bits u) l') (le_word (uc_bits u) (repeat 48 n))) as [E|N].
  - apply le_word_inj in E; [|destruct u; cbn; lia|rewrite repeat_length; exact L'|exact F|exact F'].
    assert (l = repeat 48 n).
    { unfold l' in E. destruct (big_endian c); [|exact E]. rewrite <- (rev_involutive l), E. apply rev_repeat. }
    apply EQ in H. rewrite H. reflexivity.
  - destruct (some_nonzero l) eqn:S; [reflexivity|exfalso]. apply N. f_equal.
    pose proof (proj2 EQ eq_refl) as S'. clear - S'. unfold l'. destruct (big_endian c); rewrite S'; [apply rev_repeat|reflexivity].
Qed.

Lemma skip_zeros_words_spec c u : forall fuel p, (length p < fuel)%nat -> all_digits p ->
  exists z r, skip_zeros_words fuel c u p = Ok r /\ p = z ++ r /\ zeros z.
Proof.
  pose proof (int_cmp_len_range u) as R.
  induction fuel as [|fuel IH]; intros p F A; [lia|]. cbn [skip_zeros_words].
  unfold remaining. destruct (Z.leb_spec (int_cmp_len u) (Z.of_nat (length p))) as [L|L].
  2:{ exists [], p. repeat split. constructor. }
  assert (L' : (Z.to_nat (int_cmp_len u) <= length p)%nat) by lia.
  rewrite take_Ok, advance_Ok by exact L'. cbn [bind].
  rewrite zero_word; [|rewrite firstn_length; lia|apply Forall_firstn; exact A].
  destruct (some_nonzero (firstn (Z.to_nat (int_cmp_len u)) p)) eqn:S; cbn [negb].
  - exists [], p. repeat split. constructor.
  - destruct (IH (skipn (Z.to_nat (int_cmp_len u)) p)) as (z & r & E & E2 & Z).
    { rewrite skipn_length. lia. } { apply Forall_skipn. exact A. }
    exists (firstn (Z.to_nat (int_cmp_len u)) p ++ z), r. split; [exact E|].
    split; [rewrite <- app_assoc, <- E2; symmetry; apply firstn_skipn|].
    apply Forall_app. split; [apply zeros_nonzero; exact S|exact Z].
Qed.

Lemma skip_zeros_chars_spec p : exists z, p = z ++ skip_zeros_chars p /\ zeros z /\ not_at (fun ch => ch = 48) (skip_zeros_chars p).
Proof.
  induction p as [|x p (z & E & Z & N)].
  - exists []. repeat split. constructor.
  - cbn [skip_zeros_chars]. destruct (Z.eqb_spec x 48) as [->|X].
    + exists (48 :: z). split; [cbn [app]; congruence|]. split; [constructor; auto|exact N].
    + exists []. split; [reflexivity|]. split; [constructor|]. exact X.
Qed.

Lemma skip_zeros_spec c u p : all_digits p ->
  exists z r, skip_zeros c u p = Ok r /\ p = z ++ r /\ zeros z /\ not_at (fun ch => ch = 48) r.
Proof.
  intros A. unfold skip_zeros. destruct (in_constexpr c).
  - destruct (skip_zeros_chars_spec p) as (z & E & Z & N). exists z, (skip_zeros_chars p). auto.
  - destruct (skip_zeros_words_spec c u (S (length p)) p ltac:(lia) A) as (z1 & r1 & -> & E1 & Z1). cbn [bind].
    destruct (skip_zeros_chars_spec r1) as (z & E & Z & N). exists (z1 ++ z), (skip_zeros_chars r1).
    split; [reflexivity|]. split; [rewrite <- app_assoc, <- E; exact E1|]. split; [apply Forall_app; auto|exact N].
Qed.

Lemma is_truncated_words_spec c u : forall fuel p, (length p < fuel)%nat -> all_digits p ->
  exists tr r, is_truncated_words fuel c u p = Ok (tr, r) /\ some_nonzero p = tr || some_nonzero r.
Proof.
  pose proof (int_cmp_len_range u) as R.
  induction fuel as [|fuel IH]; intros p F A; [lia|]. cbn [is_truncated_words].
  unfold remaining. destruct (Z.leb_spec (int_cmp_len u) (Z.of_nat (length p))) as [L|L].
  2:{ exists false, p. split; reflexivity. }
  assert (L' : (Z.to_nat (int_cmp_len u) <= length p)%nat) by lia.
  rewrite take_Ok, advance_Ok by exact L'. cbn [bind].
  rewrite zero_word; [|rewrite firstn_length; lia|apply Forall_firstn; exact A].
  assert (SP : some_nonzero p = some_nonzero (firstn (Z.to_nat (int_cmp_len u)) p) || some_nonzero (skipn (Z.to_nat (int_cmp_len u)) p)).
  { rewrite <- some_nonzero_app, firstn_skipn. reflexivity. }
  rewrite SP. destruct (some_nonzero (firstn (Z.to_nat (int_cmp_len u)) p)) eqn:S; cbn [negb orb].
  - exists true, p. split; reflexivity.
  - apply IH; [rewrite skipn_length; lia|apply Forall_skipn; exact A].
Qed.

Lemma is_truncated_spec c u p : all_digits p -> is_truncated c u p = Ok (some_nonzero p).
Proof.
  intros A. unfold is_truncated. destruct (in_constexpr c); [reflexivity|].
  destruct (is_truncated_words_spec c u (S (length p)) p ltac:(lia) A) as (tr & r & -> & ->). cbn [bind].
  destruct tr; reflexivity.
Qed.

(** ** The digit loops *)

Lemma parse_eight_ok c u p : (8 <= length p)%nat -> all_digits (firstn 8 p) ->
  parse_eight_digits_unrolled c u p = Ok (digits_value (firstn 8 p)).
Proof.
  intros L A. unfold parse_eight_digits_unrolled.
  assert (L8 : length (firstn 8 p) = 8%nat) by (rewrite firstn_length; lia).
  destruct (in_constexpr c || negb (has_simd_opt c u)).
  - rewrite read8_spec by exact L. cbn [bind]. rewrite map_u8_digits by exact A. rewrite parse_eight_list by assumption. reflexivity.
  - rewrite take_Ok by exact L. cbn [bind]. rewrite simd_read8_digits by exact A. rewrite parse_eight_list by assumption. reflexivity.
Qed.

Definition stp (c : cfg) : Z := if limb64 c then 19 else 9.
Lemma stp_ok c : 9 <= stp c <= 19 /\ 10 ^ stp c < 2 ^ lb c.
Proof. unfold stp. destruct (lb_cases c) as [(-> & -> & _)|(-> & -> & _)]; split; lia. Qed.

Lemma pow10_app (ds : list Z) n : 0 <= n -> 10 ^ (n + Z.of_nat (length ds)) = 10 ^ n * 10 ^ Z.of_nat (length ds).
Proof. intros. apply Z.pow_add_r; lia. Qed.

Lemma wlimb_id c x n : 0 <= x < 10 ^ n -> n <= stp c -> wlimb c x = x.
Proof.
  intros H Hn. unfold wlimb. fold (lb c). apply Z.mod_small. destruct (stp_ok c) as [R1 R2].
  assert (10 ^ n <= 10 ^ stp c) by (apply Z.pow_le_mono_r; lia). lia.
Qed.

Lemma eight_loop_spec c u md : forall fuel p value counter digits,
  (length p < fuel)%nat -> all_digits p -> 0 <= counter <= stp c -> digits <= md ->
  0 <= value < 10 ^ counter ->
  exists ds p', p = ds ++ p' /\
    eight_loop fuel c u (stp c) md p value counter digits =
      Ok (p', value * 10 ^ Z.of_nat (length ds) + digits_value ds, counter + Z.of_nat (length ds), digits + Z.of_nat (length ds)) /\
    counter + Z.of_nat (length ds) <= stp c /\ digits + Z.of_nat (length ds) <= md.
Proof.
  induction fuel as [|fuel IH]; intros p value counter digits F A HC HD HV; [lia|]. cbn [eight_loop].
  destruct ((8 <=? remaining p) && (8 <=? stp c - counter) && (8 <=? md - digits)) eqn:G.
  - rewrite !andb_true_iff, !Z.leb_le in G. unfold remaining in G. destruct G as ((G1 & G2) & G3).
    assert (L8 : (8 <= length p)%nat) by lia.
    rewrite parse_eight_ok by (try exact L8; apply Forall_firstn; exact A). cbn [bind].
    rewrite advance_Ok by exact L8. cbn [bind].
    set (d8 := firstn 8 p). set (p8 := skipn 8 p).
    assert (E8 : length d8 = 8%nat) by (unfold d8; rewrite firstn_length; lia).
    assert (A8 : all_digits d8) by (apply Forall_firstn; exact A).
    pose proof (digits_value_range d8 A8) as RV. rewrite E8 in RV. change (10 ^ Z.of_nat 8) with 100000000 in RV.
    assert (P8 : 10 ^ (counter + 8) = 10 ^ counter * 100000000) by (rewrite Z.pow_add_r by lia; reflexivity).
    rewrite (wlimb_id c (value * 100000000) (counter + 8)) by lia.
    rewrite (wlimb_id c (value * 100000000 + digits_value d8) (counter + 8)) by lia.
    destruct (IH p8 (value * 100000000 + digits_value d8) (counter + 8) (digits + 8)) as (ds & p' & E & -> & C & D).
    { unfold p8. rewrite skipn_length. lia. } { apply Forall_skipn. exact A. } { lia. } { lia. } { lia. }
    exists (d8 ++ ds), p'. split; [rewrite <- app_assoc, <- E; symmetry; apply firstn_skipn|].
    rewrite app_length, E8, digits_value_app. replace (Z.of_nat (8 + length ds)) with (8 + Z.of_nat (length ds)) by lia.
    rewrite (Z.pow_add_r 10 8) by lia. change (10 ^ 8) with 100000000.
    split; [|lia]. f_equal. f_equal; [f_equal; [f_equal; ring|lia]|lia].
  - exists [], p. split; [reflexivity|]. cbn [length]. rewrite digits_value_nil. change (Z.of_nat 0) with 0. rewrite Z.pow_0_r, Z.mul_1_r, !Z.add_0_r.
    split; [reflexivity|]. lia.
Qed.

Lemma one_loop_spec c u md : forall p value counter digits,
  all_digits p -> 0 <= counter <= stp c -> digits <= md -> 0 <= value < 10 ^ counter ->
  exists ds p', p = ds ++ p' /\
    one_loop c u (stp c) md p value counter digits =
      Ok (p', value * 10 ^ Z.of_nat (length ds) + digits_value ds, counter + Z.of_nat (length ds), digits + Z.of_nat (length ds)) /\
    counter + Z.of_nat (length ds) <= stp c /\ digits + Z.of_nat (length ds) <= md /\
    (p' = [] \/ counter + Z.of_nat (length ds) = stp c \/ digits + Z.of_nat (length ds) = md).
Proof.
  assert (NIL : forall p value counter digits, counter <= stp c -> digits <= md -> (p = [] \/ counter = stp c \/ digits = md) ->
     exists ds p', p = ds ++ p' /\ Ok (p, value, counter, digits) =
      Ok (p', value * 10 ^ Z.of_nat (length ds) + digits_value ds, counter + Z.of_nat (length ds), digits + Z.of_nat (length ds)) /\
      counter + Z.of_nat (length ds) <= stp c /\ digits + Z.of_nat (length ds) <= md /\
      (p' = [] \/ counter + Z.of_nat (length ds) = stp c \/ digits + Z.of_nat (length ds) = md)).
  { intros p value counter digits HC HD H. exists [], p. split; [reflexivity|]. cbn [length]. rewrite digits_value_nil. change (Z.of_nat 0) with 0. rewrite Z.pow_0_r, Z.mul_1_r, !Z.add_0_r.
    auto. }
  induction p as [|ch p IH]; intros value counter digits A HC HD HV; cbn [one_loop].
  - apply NIL; [lia|lia|]. left; reflexivity.
  - destruct (Z.ltb_spec counter (stp c)) as [G1|G1]; cbn [andb]; [|apply NIL; [lia|lia|right; left; lia]].
    destruct (Z.ltb_spec digits md) as [G2|G2]; [|apply NIL; [lia|lia|right; right; lia]].
    inversion A as [|? ? Hx Ap]; subst. rewrite minus_zero_digit by exact Hx. cbn [bind]. apply digit_true in Hx.
    destruct (stp_ok c) as [SR _].
    assert (P1 : 10 ^ (counter + 1) = 10 ^ counter * 10) by (rewrite Z.pow_add_r by lia; reflexivity).
    assert (P0 : 10 ^ 1 = 10) by reflexivity.
    rewrite (wlimb_id c (value * 10) (counter + 1)) by lia. rewrite (wlimb_id c (ch - 48) 1) by lia.
    rewrite (wlimb_id c (value * 10 + (ch - 48)) (counter + 1)) by lia.
    destruct (IH (value * 10 + (ch - 48)) (counter + 1) (digits + 1)) as (ds & p' & E & -> & C & D & FIN); [exact Ap|lia|lia|lia|].
    exists (ch :: ds), p'. split; [cbn [app]; congruence|]. cbn [length]. rewrite digits_value_cons.
    rewrite Nat2Z.inj_succ. unfold Z.succ. rewrite (Z.pow_add_r 10 (Z.of_nat (length ds)) 1) by lia. rewrite P0.
    split; [f_equal; f_equal; [f_equal; [f_equal; ring|lia]|lia]|]. split; [lia|]. split; [lia|].
    destruct FIN as [Q|[Q|Q]]; [left; exact Q|right; left; lia|right; right; lia].
Qed.

Lemma add_native_spec c big power value : limbs c big -> norm c big -> 0 < power < 2 ^ lb c -> 0 <= value < 2 ^ lb c ->
  bv c big * power + value < top c ->
  exists r, add_native c big power value = r /\ limbs c r /\ norm c r /\ bv c r = bv c big * power + value.
Proof.
  intros L N HP HV HT. unfold add_native.
  destruct (small_mul_spec c big power L ltac:(lia) ltac:(lia)) as (r & -> & R1 & R2 & R3).
  unfold small_add.
  destruct (small_add_from_spec c r value 0 R1 HV) as (q & -> & Q1 & Q2 & Q3 & _).
  { pose proof (vlen_nonneg r). lia. } { rewrite Z.mul_0_r, Z.pow_0_r. lia. }
  exists q. split; [reflexivity|]. split; [exact Q1|]. split; [apply Q3, R3; [exact N|lia]|].
  rewrite Q2, Z.mul_0_r, Z.pow_0_r. lia.
Qed.

Lemma powers10_ok n : 0 <= n <= 19 -> nth_res powers_of_ten_uint64 n = Ok (10 ^ n).
Proof.
  intros H. assert (Q : forallb (fun i => match nth_res powers_of_ten_uint64 (Z.of_nat i) with Ok y => y =? 10 ^ (Z.of_nat i) | UB => false end) (seq 0 20) = true) by (vm_compute; reflexivity).
  rewrite forallb_forall in Q. specialize (Q (Z.to_nat n)). rewrite in_seq in Q. specialize (Q ltac:(lia)).
  rewrite Z2Nat.id in Q by lia. destruct (nth_res powers_of_ten_uint64 n); [|discriminate].
  apply Z.eqb_eq in Q. congruence.
Qed.

Definition more_nonzero (more : option (list Z)) : bool :=
  match more with Some f => some_nonzero f | None => false end.

(** The result of reading [S] (all digits read so far followed by the rest). *)
Definition read_digits (md : Z) (B d : Z) (p : list Z) (more : option (list Z)) (dn : bool) (B' d' : Z) : Prop :=
  (d + Z.of_nat (length p) < md /\ dn = false /\ d' = d + Z.of_nat (length p) /\
     B' = B * 10 ^ Z.of_nat (length p) + digits_value p) \/
  (dn = true /\ exists a b, p = a ++ b /\ d + Z.of_nat (length a) = md /\
     let D := B * 10 ^ Z.of_nat (length a) + digits_value a in
     let tr := some_nonzero b || more_nonzero more in
     d' = (if tr then md + 1 else md) /\ B' = (if tr then D * 10 + 1 else D)).

Lemma mantissa_loop_spec c u md more : 0 < md -> 10 ^ (md + 1) < top c ->
  (match more with Some f => all_digits f | None => True end) ->
  forall fuel p big d, (length p < fuel)%nat -> all_digits p -> limbs c big -> norm c big ->
  0 <= d < md -> bv c big < 10 ^ d ->
  exists dn big' d', mantissa_loop fuel c u (stp c) md more p big d = Ok (dn, big', d') /\
    limbs c big' /\ norm c big' /\ read_digits md (bv c big) d p more dn (bv c big') d'.
Proof.
  intros MD HT HM. destruct (stp_ok c) as [SR SB].
  induction fuel as [|fuel IH]; intros p big d F A L N HD HB; [lia|].
  destruct p as [|x p0].
  { cbn [mantissa_loop]. exists false, big, d. split; [reflexivity|]. split; [exact L|]. split; [exact N|].
    left. cbn [length]. rewrite digits_value_nil. change (Z.of_nat 0) with 0. rewrite Z.pow_0_r. lia. }
  set (p := x :: p0) in *.
  assert (U : mantissa_loop (S fuel) c u (stp c) md more p big d =
    (let* '(p, value, counter, digits) := eight_loop (S (length p)) c u (stp c) md p 0 0 d in
      let* '(p, value, counter, digits) := one_loop c u (stp c) md p value counter digits in
      let* pw := nth_res powers_of_ten_uint64 counter in
      let big := add_native c big (wlimb c pw) value in
      if digits =? md then
        let* tr1 := is_truncated c u p in
        let* tr2 := (match more with Some f => is_truncated c u f | None => Ok false end) in
        if tr1 || tr2 then let '(big, digits) := round_up_bigint c big digits in Ok (true, big, digits)
        else Ok (true, big, digits)
      else mantissa_loop fuel c u (stp c) md more p big digits)) by reflexivity.
  rewrite U. clear U.
  destruct (eight_loop_spec c u md (S (length p)) p 0 0 d ltac:(lia) A ltac:(lia) ltac:(lia) ltac:(cbn; lia)) as (d1 & p1 & E1 & -> & C1 & D1).
  cbn [bind]. rewrite Z.mul_0_l, !Z.add_0_l in *.
  assert (A1 : all_digits d1 /\ all_digits p1) by (rewrite E1 in A; apply Forall_app in A; exact A).
  pose proof (digits_value_range d1 (proj1 A1)) as RV1.
  destruct (one_loop_spec c u md p1 (digits_value d1) (Z.of_nat (length d1)) (d + Z.of_nat (length d1)) (proj2 A1) ltac:(lia) ltac:(lia) RV1)
    as (d2 & p2 & E2 & -> & C2 & D2 & FIN).
  cbn [bind]. rewrite <- digits_value_app.
  set (ds := d1 ++ d2) in *.
  assert (LDS : Z.of_nat (length d1) + Z.of_nat (length d2) = Z.of_nat (length ds)) by (unfold ds; rewrite app_length; lia).
  replace (d + Z.of_nat (length d1) + Z.of_nat (length d2)) with (d + Z.of_nat (length ds)) in * by lia.
  rewrite LDS in *.
  assert (EP : p = ds ++ p2) by (unfold ds; rewrite <- app_assoc, <- E2; exact E1).
  assert (ADS : all_digits ds /\ all_digits p2) by (rewrite EP in A; apply Forall_app in A; exact A).
  destruct ADS as [ADS AP2]. pose proof (digits_value_range ds ADS) as RV.
  assert (NE : (0 < length ds)%nat).
  { destruct ds as [|y ds']; [|cbn; lia]. cbn [app] in EP. cbn [length] in FIN. change (Z.of_nat 0) with 0 in FIN.
    destruct FIN as [Q|[Q|Q]]; [rewrite Q in EP; discriminate|lia|lia]. }
  clearbody ds. clear d1 d2 p1 E1 E2 A1 RV1 C1 D1 LDS.
  rewrite powers10_ok by lia. cbn [bind]. cbv zeta.
  assert (PN : 0 < 10 ^ Z.of_nat (length ds)) by (apply Z.pow_pos_nonneg; lia).
  assert (PLE : 10 ^ Z.of_nat (length ds) <= 10 ^ stp c) by (apply Z.pow_le_mono_r; lia).
  assert (WP : wlimb c (10 ^ Z.of_nat (length ds)) = 10 ^ Z.of_nat (length ds)) by (unfold wlimb; fold (lb c); apply Z.mod_small; lia).
  rewrite WP.
  pose proof (bv_range c big L) as BR.
  assert (PD : 10 ^ (d + Z.of_nat (length ds)) = 10 ^ d * 10 ^ Z.of_nat (length ds)) by (apply Z.pow_add_r; lia).
  assert (PMD : 10 ^ (d + Z.of_nat (length ds)) <= 10 ^ md) by (apply Z.pow_le_mono_r; lia).
  assert (PM1 : 10 ^ (md + 1) = 10 ^ md * 10) by (rewrite Z.pow_add_r by lia; reflexivity).
  assert (NB : bv c big * 10 ^ Z.of_nat (length ds) + digits_value ds < 10 ^ (d + Z.of_nat (length ds))) by nia.
  destruct (add_native_spec c big (10 ^ Z.of_nat (length ds)) (digits_value ds) L N ltac:(lia) ltac:(lia) ltac:(lia)) as (big2 & -> & L2 & N2 & B2).
  destruct (Z.eqb_spec (d + Z.of_nat (length ds)) md) as [EQ|NQ].
  - rewrite is_truncated_spec by exact AP2. cbn [bind].
    assert (TM : (match more with Some f => is_truncated c u f | None => Ok false end) = Ok (more_nonzero more)).
    { destruct more; [apply is_truncated_spec; exact HM|reflexivity]. }
    rewrite TM. cbn [bind]. destruct (some_nonzero p2 || more_nonzero more) eqn:TR.
    + unfold round_up_bigint.
      assert (LT10 : 10 < 2 ^ lb c) by (destruct (lb_cases c) as [(_ & -> & _)|(_ & -> & _)]; lia).
      destruct (add_native_spec c big2 10 1 L2 N2 ltac:(lia) ltac:(lia)) as (big3 & -> & L3 & N3 & B3).
      { rewrite B2. rewrite EQ in *. lia. }
      exists true, big3, (d + Z.of_nat (length ds) + 1). split; [reflexivity|]. split; [exact L3|]. split; [exact N3|].
      right. split; [reflexivity|]. exists ds, p2. split; [exact EP|]. split; [exact EQ|]. cbv zeta. rewrite TR.
      split; [lia|]. rewrite B3, B2. reflexivity.
    + exists true, big2, (d + Z.of_nat (length ds)). split; [reflexivity|]. split; [exact L2|]. split; [exact N2|].
      right. split; [reflexivity|]. exists ds, p2. split; [exact EP|]. split; [exact EQ|]. cbv zeta. rewrite TR.
      split; [lia|]. exact B2.
  - destruct (IH p2 big2 (d + Z.of_nat (length ds))) as (dn & big' & d' & -> & L' & N' & RD).
    { assert (LP : length p = (length ds + length p2)%nat) by (rewrite EP; apply app_length). lia. }
    { exact AP2. } { exact L2. } { exact N2. } { lia. } { rewrite B2. exact NB. }
    exists dn, big', d'. split; [reflexivity|]. split; [exact L'|]. split; [exact N'|].
    rewrite EP. destruct RD as [(R1 & R2 & R3 & R4)|(R1 & a & b & R2 & R3 & R4)].
    + left. rewrite app_length, digits_value_app, Nat2Z.inj_add, Z.pow_add_r by lia.
      split; [lia|]. split; [exact R2|]. split; [lia|]. rewrite R4, B2. ring.
    + right. split; [exact R1|]. exists (ds ++ a), b. split; [rewrite R2, app_assoc; reflexivity|].
      rewrite app_length, digits_value_app, Nat2Z.inj_add, Z.pow_add_r by lia. split; [lia|].
      cbv zeta in *. destruct R4 as [R4 R5]. split; [exact R4|]. rewrite R5, B2.
      replace (bv c big * (10 ^ Z.of_nat (length ds) * 10 ^ Z.of_nat (length a)) + (digits_value ds * 10 ^ Z.of_nat (length a) + digits_value a))
        with ((bv c big * 10 ^ Z.of_nat (length ds) + digits_value ds) * 10 ^ Z.of_nat (length a) + digits_value a) by ring.
      reflexivity.
Qed.

(** What parse_mantissa returns for a number whose digits denote [W], with n
    significant digits. *)
Definition mantissa_read (md W n B d : Z) : Prop :=
  (n <= md /\ d = n /\ B = W) \/
  (md < n /\ let D := W / 10 ^ (n - md) in
     (W mod 10 ^ (n - md) = 0 /\ d = md /\ B = D) \/
     (W mod 10 ^ (n - md) <> 0 /\ d = md + 1 /\ B = D * 10 + 1)).

Lemma lead_digits z r : zeros z -> all_digits r -> r <> [] -> not_at (fun ch => ch = 48) r ->
  10 ^ (Z.of_nat (length r) - 1) <= digits_value (z ++ r) < 10 ^ Z.of_nat (length r).
Proof.
  intros Z A NE NA. rewrite digits_value_app, zeros_value by exact Z. rewrite Z.mul_0_l, Z.add_0_l.
  split; [|apply digits_value_range; exact A].
  destruct r as [|x r]; [congruence|]. cbn in NA. inversion A as [|? ? Hx Ar]; subst. apply digit_true in Hx.
  rewrite digits_value_cons. cbn [length]. replace (Z.of_nat (S (length r)) - 1) with (Z.of_nat (length r)) by lia.
  pose proof (digits_value_range r Ar). pose proof (Z.pow_pos_nonneg 10 (Z.of_nat (length r)) ltac:(lia) ltac:(lia)). nia.
Qed.

Lemma digits_count W n m : 10 ^ (n - 1) <= W < 10 ^ n -> 10 ^ (m - 1) <= W < 10 ^ m -> 0 < n -> 0 < m -> n = m.
Proof.
  intros H1 H2 Hn Hm. destruct (Z.lt_trichotomy n m) as [L|[E|L]]; [exfalso|exact E|exfalso].
  - assert (10 ^ n <= 10 ^ (m - 1)) by (apply Z.pow_le_mono_r; lia). lia.
  - assert (10 ^ m <= 10 ^ (n - 1)) by (apply Z.pow_le_mono_r; lia). lia.
Qed.

(** Reading the significant digits [a ++ b] with [a] the first max_digits. *)
Lemma mantissa_read_cut md W a b (tr : bool) : 0 < md -> Z.of_nat (length a) = md -> all_digits a -> all_digits b ->
  W = digits_value a * 10 ^ Z.of_nat (length b) + digits_value b -> tr = some_nonzero b ->
  mantissa_read md W (md + Z.of_nat (length b)) (if tr then digits_value a * 10 + 1 else digits_value a) (if tr then md + 1 else md).
Proof.
  intros MD LA A B HW ->. pose proof (digits_value_range b B) as RB.
  pose proof (Z.pow_pos_nonneg 10 (Z.of_nat (length b)) ltac:(lia) ltac:(lia)) as P.
  destruct b as [|y b'].
  - left. cbn [length some_nonzero existsb] in *. rewrite digits_value_nil in HW. change (Z.of_nat 0) with 0 in *. rewrite Z.pow_0_r in HW. lia.
  - right. set (b := y :: b') in *. split; [unfold b; cbn [length]; lia|]. cbv zeta.
    replace (md + Z.of_nat (length b) - md) with (Z.of_nat (length b)) by lia.
    assert (DV : W / 10 ^ Z.of_nat (length b) = digits_value a) by (symmetry; apply (Z.div_unique_pos _ _ _ (digits_value b)); lia).
    assert (MV : W mod 10 ^ Z.of_nat (length b) = digits_value b) by (symmetry; apply (Z.mod_unique_pos _ _ (digits_value a)); lia).
    rewrite DV, MV. destruct (some_nonzero b) eqn:S.
    + right. pose proof (nonzero_value b B S). split; [lia|]. split; reflexivity.
    + left. split; [apply zeros_value, zeros_nonzero; exact S|]. split; reflexivity.
Qed.

Theorem parse_mantissa_spec c u num md ip fp n : 0 < md -> 10 ^ (md + 1) < top c ->
  pn_integer num = Some ip -> span_list (pn_fraction num) = fp -> all_digits ip -> all_digits fp ->
  10 ^ (n - 1) <= digits_value (ip ++ fp) < 10 ^ n -> 0 < n ->
  exists big d, parse_mantissa c u num md = Ok (big, d) /\ limbs c big /\ norm c big /\
    mantissa_read md (digits_value (ip ++ fp)) n (bv c big) d.
Proof.
  intros MD HT HI HF AI AF HN PN. unfold parse_mantissa. rewrite HI. change (span_list (Some ip)) with ip.
  destruct (skip_zeros_spec c u ip AI) as (z & r & -> & EI & Z & NA). cbn [bind]. fold (stp c).
  assert (AR : all_digits r) by (rewrite EI in AI; apply Forall_app in AI; apply AI).
  assert (HM : match pn_fraction num with Some f => all_digits f | None => True end) by (destruct (pn_fraction num); [cbn in HF; subst; exact AF|exact I]).
  assert (MN : more_nonzero (pn_fraction num) = some_nonzero fp) by (destruct (pn_fraction num); cbn in HF; subst fp; reflexivity).
  destruct (mantissa_loop_spec c u md (pn_fraction num) MD HT HM (S (length r)) r [] 0) as (dn & big & d & -> & L & N & RD);
    try solve [lia | exact AR | constructor | left; reflexivity | rewrite bv_nil, Z.pow_0_r; lia].
  cbn [bind]. rewrite bv_nil in RD.
  assert (WV : digits_value (ip ++ fp) = digits_value (z ++ (r ++ fp))) by (rewrite EI, app_assoc; reflexivity).
  assert (AX : all_digits (r ++ fp)) by (apply Forall_app; auto).
  destruct RD as [(R1 & -> & R3 & R4)|(-> & a & b & R2 & R3 & R4 & R5)].
  - rewrite Z.mul_0_l, !Z.add_0_l in *.
    (* all integer digits read *)
    assert (FIN : forall r2 big2 d2 dn2 z2, all_digits r2 -> zeros z2 -> digits_value (ip ++ fp) = digits_value (z2 ++ r ++ r2) ->
       (r = [] -> not_at (fun ch => ch = 48) r2) -> limbs c big2 -> norm c big2 ->
       read_digits md (bv c big) d r2 None dn2 (bv c big2) d2 ->
       mantissa_read md (digits_value (ip ++ fp)) n (bv c big2) d2).
    { intros r2 big2 d2 dn2 z2 A2 Z2 EW NA2 L2 N2 RD.
      assert (AR2 : all_digits (r ++ r2)) by (apply Forall_app; auto).
      assert (NN : n = Z.of_nat (length (r ++ r2))).
      { assert (NE : r ++ r2 <> []).
        { intros E. rewrite EW, E, app_nil_r, zeros_value in HN by exact Z2.
          pose proof (Z.pow_pos_nonneg 10 (n - 1) ltac:(lia) ltac:(lia)). lia. }
        apply (digits_count (digits_value (ip ++ fp))); [exact HN| |exact PN|destruct (r ++ r2); [congruence|cbn [length]; lia]].
        rewrite EW. apply lead_digits; [exact Z2|exact AR2|exact NE|]. destruct r; [apply NA2; reflexivity|exact NA]. }
      rewrite EW, digits_value_app, (zeros_value z2), Z.mul_0_l, Z.add_0_l by exact Z2.
      destruct RD as [(Q1 & _ & Q3 & Q4)|(_ & a & b & Q2 & Q3 & Q4 & Q5)].
      - left. rewrite app_length in NN. split; [lia|]. split; [lia|]. rewrite Q4, R4, digits_value_app. reflexivity.
      - cbn [more_nonzero] in Q4, Q5. rewrite orb_false_r in Q4, Q5. cbv zeta in Q5. rewrite R4 in Q5.
        rewrite <- digits_value_app in Q5. rewrite Q5, Q4, NN, Q2.
        replace (Z.of_nat (length (r ++ a ++ b))) with (md + Z.of_nat (length b)) by (rewrite !app_length; lia).
        apply Forall_app in AR2. rewrite Q2 in AR2. destruct AR2 as [AR1 AR2]. apply Forall_app in AR2.
        apply mantissa_read_cut; [exact MD|rewrite app_length; lia|apply Forall_app; split; [exact AR1|apply AR2]|apply AR2| |reflexivity].
        rewrite app_assoc, digits_value_app. reflexivity. }
    destruct (pn_fraction num) as [f|] eqn:PF.
    + cbn in HF. subst f.
      assert (SK : exists z2 r2, (if d =? 0 then skip_zeros c u fp else Ok fp) = Ok r2 /\ fp = z2 ++ r2 /\ zeros z2 /\
         (r = [] -> not_at (fun ch => ch = 48) r2) /\ (r <> [] -> z2 = [])).
      { destruct (Z.eqb_spec d 0) as [D0|D0].
        - destruct (skip_zeros_spec c u fp AF) as (z2 & r2 & -> & E2 & Z2 & N2). exists z2, r2.
          repeat split; auto. intros NR. destruct r; [congruence|cbn [length] in R3; lia].
        - exists [], fp. repeat split; [constructor|]. intros ->. cbn [length] in R3. lia. }
      destruct SK as (z2 & r2 & -> & E2 & Z2 & N2 & NZ). cbn [bind].
      assert (AR2 : all_digits r2) by (rewrite E2 in AF; apply Forall_app in AF; apply AF).
      destruct (mantissa_loop_spec c u md None MD HT I (S (length r2)) r2 big d) as (dn & big2 & d2 & -> & L2 & N2' & RD2);
        try solve [lia | exact AR2 | exact L | exact N].
      { rewrite R4, R3. apply digits_value_range. exact AR. }
      cbn [bind]. exists big2, d2. split; [reflexivity|]. split; [exact L2|]. split; [exact N2'|].
      apply (FIN r2 big2 d2 dn (z ++ z2)); try assumption.
      * apply Forall_app; auto.
      * rewrite WV, E2. destruct r as [|x0 r0]; [cbn [app]; rewrite app_assoc; reflexivity|].
        rewrite NZ by discriminate. cbn [app]. rewrite app_nil_r. reflexivity.
    + cbn in HF. subst fp. exists big, d. split; [reflexivity|]. split; [exact L|]. split; [exact N|].
      apply (FIN [] big d false z); try assumption; try constructor; try exact I.
      cbn [length]. rewrite digits_value_nil. change (Z.of_nat 0) with 0. rewrite Z.pow_0_r. lia.
  - cbv zeta in R5. rewrite Z.mul_0_l, Z.add_0_l in *. rewrite MN in *.
    exists big, d. split; [reflexivity|]. split; [exact L|]. split; [exact N|].
    assert (AB : all_digits a /\ all_digits b) by (rewrite R2 in AR; apply Forall_app in AR; exact AR).
    assert (NN : n = md + Z.of_nat (length (b ++ fp))).
    { assert (E : md + Z.of_nat (length (b ++ fp)) = Z.of_nat (length (r ++ fp))) by (rewrite R2, !app_length; lia).
      rewrite E. assert (NE : r ++ fp <> []) by (rewrite R2; destruct a; [cbn [length] in R3; lia|discriminate]).
      apply (digits_count (digits_value (ip ++ fp))); [exact HN| |exact PN|destruct (r ++ fp); [congruence|cbn [length]; lia]].
      rewrite WV. apply lead_digits; [exact Z|exact AX|exact NE|]. destruct r; [destruct a; [cbn [length] in R3; lia|discriminate]|exact NA]. }
    rewrite R5, R4, NN.
    apply mantissa_read_cut; [exact MD|exact R3|apply AB|apply Forall_app; split; [apply AB|exact AF]| |rewrite some_nonzero_app; reflexivity].
    rewrite WV, digits_value_app, (zeros_value z), Z.mul_0_l, Z.add_0_l by exact Z.
    rewrite R2, <- app_assoc, digits_value_app. reflexivity.
Qed.
