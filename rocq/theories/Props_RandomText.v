(** Property C64: for every seed the programs tests/random_string.cpp and
    tests/short_random_string.cpp end, stay inside their buffer, build JSON numbers
    and find from_chars in agreement with every correct strtod. *)
From Verif Require Import Machine Config Chars Format ParseNumber DecToBin FromChars Bench RandomText WordLemmas
  Rounding ComputeFloat SpecFloat FloatBridge SpecGrammar SpecText SpecApi Scan Special FloatApi FloatRel TextSpec
  Props_Pow10 Props_Float Props_Relations Props_Grammar Props_Json Props_Texts Props_FindMax.
From Coq Require Import QArith Qabs Lqa.
Open Scope Z_scope.

(** *** The engine *)
Definition odd_step : Z := 0x60bee2bee120fc15.
Definition advance_state (x : Z) : Z := (x + odd_step) mod 2 ^ 64.
Definition halves (a : Z) : Z := Z.lxor (a / 2 ^ 64) (a mod 2 ^ 64).
Definition mix (x : Z) : Z := halves (halves (x * 0xa3b195354a39b70d) * 0x1b03738712fad5c9).
Definition state (x : Z) : Prop := 0 <= x < 2 ^ 64.

Lemma lxor_range a b : 0 <= a < 2 ^ 64 -> 0 <= b < 2 ^ 64 -> 0 <= Z.lxor a b < 2 ^ 64.
Proof.
  intros A B. assert (P : 0 <= Z.lxor a b) by (apply Z.lxor_nonneg; lia). split; [exact P|].
  destruct (Z.eq_dec (Z.lxor a b) 0) as [->|N]; [lia|]. apply Z.log2_lt_pow2; [lia|].
  eapply Z.le_lt_trans; [apply Z.log2_lxor; lia|].
  apply Z.max_lub_lt; [destruct (Z.eq_dec a 0) as [->|]|destruct (Z.eq_dec b 0) as [->|]]; try (cbn; lia); apply Z.log2_lt_pow2; lia.
Qed.

Lemma halves_range a b : state a -> state b -> state (halves (a * b)).
Proof.
  intros A B. unfold state, halves in *. apply lxor_range; [|apply Z.mod_pos_bound; lia].
  split; [apply Z.div_pos; nia|apply Z.div_lt_upper_bound; nia].
Qed.

Lemma advance_range x : state (advance_state x).
Proof. apply Z.mod_pos_bound. lia. Qed.

Lemma mix_range x : state x -> state (mix x).
Proof. intros X. unfold mix. apply halves_range; [apply halves_range; [exact X|]|]; unfold state; lia. Qed.

Lemma next_spec c x : next c x = (advance_state x, mix (advance_state x)).
Proof.
  unfold next, u64. change (x + 0x60bee2bee120fc15) with (x + odd_step). fold (advance_state x).
  pose proof (advance_range x) as A. rewrite full_multiplication_spec by (first [exact A|lia]). cbv beta iota zeta.
  fold (halves (advance_state x * 0xa3b195354a39b70d)).
  rewrite full_multiplication_spec by (first [apply halves_range; [exact A|unfold state; lia]|lia]). reflexivity.
Qed.

(** [k] steps lead from [x] to the state 1; from everywhere at most 2^64 steps do. *)
Definition reach (x : Z) (k : nat) : Prop := (x + Z.of_nat k * odd_step) mod 2 ^ 64 = 1.

Lemma reach_exists x : exists k, reach x k /\ (0 < k)%nat /\ Z.of_nat k <= 2 ^ 64.
Proof.
  set (j := ((1 - x) * 5123055814024426301) mod 2 ^ 64).
  assert (J : 0 <= j < 2 ^ 64) by (apply Z.mod_pos_bound; lia).
  assert (E : (x + j * odd_step) mod 2 ^ 64 = 1).
  { rewrite Z.add_mod, Z.mul_mod by lia. unfold j. rewrite Z.mod_mod by lia. rewrite <- Z.mul_mod, <- Z.add_mod by lia.
    assert (K : 5123055814024426301 * odd_step = (5123055814024426301 * odd_step / 2 ^ 64) * 2 ^ 64 + 1) by (vm_compute; reflexivity).
    set (q := 5123055814024426301 * odd_step / 2 ^ 64) in *. rewrite <- (Z.mul_assoc (1 - x)). rewrite K.
    replace (x + (1 - x) * (q * 2 ^ 64 + 1)) with (1 + ((1 - x) * q) * 2 ^ 64) by ring. rewrite Z.mod_add by lia. reflexivity. }
  destruct (Z.eq_dec j 0) as [Z0|NZ].
  - exists (Z.to_nat (2 ^ 64)). unfold reach. rewrite Z2Nat.id by lia. split; [|lia].
    rewrite Z0 in E. rewrite (Z.mul_comm (2 ^ 64)), Z.mod_add by lia. rewrite Z.mul_0_l, Z.add_0_r in E. exact E.
  - exists (Z.to_nat j). unfold reach. rewrite Z2Nat.id by lia. split; [exact E|lia].
Qed.

Lemma reach_next x k : reach x (S k) -> reach (advance_state x) k.
Proof. unfold reach, advance_state. intros E. rewrite Z.add_mod_idemp_l by lia. rewrite <- E. f_equal. lia. Qed.

Lemma reach_zero x : state x -> reach x 0 -> x = 1.
Proof. unfold reach, state. intros X E. rewrite Z.mul_0_l, Z.add_0_r, Z.mod_small in E by exact X. exact E. Qed.

(** *** Numbers in a range *)
(** A 64-bit number is used for a range of [s] values unless this fails. *)
Definition accepted (s v : Z) : Prop := (2 ^ 64) mod s <= (v * s) mod 2 ^ 64.

Lemma one_accepted s : 1 <= s <= 2000 -> accepted s (mix 1).
Proof.
  intros S. assert (H : forallb (fun s => (2 ^ 64) mod s <=? (mix 1 * s) mod 2 ^ 64) (map Z.of_nat (seq 1 2000)) = true)
    by (vm_compute; reflexivity).
  rewrite forallb_forall in H. apply Z.leb_le. apply H. apply in_map_iff. exists (Z.to_nat s).
  split; [lia|]. apply in_seq. lia.
Qed.

Lemma redraw_spec c s : 1 <= s <= 2000 -> forall fuel x k,
  state x -> reach x k -> (k <= fuel)%nat ->
  exists x' k',
    redraw fuel c s ((2 ^ 64) mod s) x (mix x * s / 2 ^ 64) ((mix x * s) mod 2 ^ 64) = Done (x', mix x' * s / 2 ^ 64) /\
    state x' /\ reach x' k' /\ (k' <= k)%nat.
Proof.
  intros S. induction fuel as [|fuel IH]; intros x k X R LE; cbn [redraw];
    (destruct (Z.ltb_spec ((mix x * s) mod 2 ^ 64) ((2 ^ 64) mod s)) as [L|L];
      [|exists x, k; split; [reflexivity|]; split; [exact X|]; split; [exact R|lia]]);
    (destruct k as [|k]; [apply (reach_zero x X) in R; subst x; pose proof (one_accepted s S) as A; unfold accepted in A; lia|]).
  - lia.
  - rewrite next_spec. pose proof (advance_range x) as X1.
    rewrite full_multiplication_spec by (first [apply mix_range; exact X1|lia]).
    destruct (IH (advance_state x) k X1 (reach_next x k R) ltac:(lia)) as (x' & k' & E & X' & R' & L').
    exists x', k'. split; [exact E|]. split; [exact X'|]. split; [exact R'|lia].
Qed.

Lemma negated_mod s : 1 <= s <= 2000 -> u64 (- s) mod s = (2 ^ 64) mod s.
Proof.
  intros S. unfold u64. replace (- s) with (2 ^ 64 - s + (-1) * 2 ^ 64) by ring. rewrite Z.mod_add by lia.
  rewrite (Z.mod_small (2 ^ 64 - s)) by lia. replace (2 ^ 64 - s) with (2 ^ 64 + (-1) * s) by ring. apply Z.mod_add. lia.
Qed.

Definition enough (fuel : nat) : Prop := 2 ^ 64 <= Z.of_nat fuel.

Lemma part_range s v : 1 <= s -> state v -> 0 <= v * s / 2 ^ 64 < s.
Proof. unfold state. intros S V. split; [apply Z.div_pos; nia|apply Z.div_lt_upper_bound; nia]. Qed.

Lemma ranged_spec fuel c x k min max : enough fuel -> 0 <= min -> max <= 2000 -> 1 <= max - min + 1 <= 2000 ->
  reach x k -> (0 < k)%nat -> Z.of_nat k <= 2 ^ 64 ->
  exists x' k',
    next_ranged_int fuel c x min max = Done (x', mix x' * (max - min + 1) / 2 ^ 64 + min) /\
    state x' /\ reach x' k' /\ (k' < k)%nat.
Proof.
  intros F MN MX SZ R K LE. destruct k as [|k]; [lia|]. unfold next_ranged_int.
  rewrite chk_Ok by lia. cbn [lift andthen]. rewrite chk_Ok by lia. cbn [lift andthen].
  set (s := max - min + 1) in *. rewrite u64_small by lia. cbv zeta. rewrite next_spec.
  pose proof (advance_range x) as X1. pose proof (reach_next x k R) as R1.
  rewrite full_multiplication_spec by (first [apply mix_range; exact X1|lia]).
  replace (s =? 0) with false by (symmetry; apply Z.eqb_neq; lia). rewrite negated_mod by exact SZ.
  assert (D : forall x', state x' -> forall k', reach x' k' -> (k' <= k)%nat ->
    exists x'' k'', (do* r := lift (chk 32 (to_signed 32 (mix x' * s / 2 ^ 64) + min)) in Done (x', r)) = Done (x'', mix x'' * s / 2 ^ 64 + min) /\
      state x'' /\ reach x'' k'' /\ (k'' < S k)%nat).
  { intros x' X' k' R' L'. exists x', k'. pose proof (part_range s _ ltac:(lia) (mix_range _ X')) as P.
    rewrite WordLemmas.to_signed_small by lia. rewrite chk_Ok by lia. split; [reflexivity|]. split; [exact X'|]. split; [exact R'|lia]. }
  destruct (_ <? s).
  - unfold enough in F. destruct (redraw_spec c s SZ fuel (advance_state x) k X1 R1 ltac:(lia)) as (x' & k' & E & X' & R' & L').
    rewrite E. cbn [andthen]. apply (D x' X' k' R' L').
  - cbn [andthen]. apply (D _ X1 k R1). lia.
Qed.

Lemma ranged_any fuel c x min max : enough fuel -> 0 <= min -> max <= 2000 -> 1 <= max - min + 1 <= 2000 ->
  exists x' r, next_ranged_int fuel c x min max = Done (x', r) /\ state x' /\ min <= r <= max.
Proof.
  intros F MN MX S. destruct (reach_exists x) as (k & R & K & L).
  destruct (ranged_spec fuel c x k min max F MN MX S R K L) as (x' & _ & E & X' & _).
  exists x'. eexists. split; [exact E|]. split; [exact X'|].
  pose proof (part_range (max - min + 1) _ ltac:(lia) (mix_range _ X')). lia.
Qed.

(** A code unit for a digit. *)
Definition is_digit (ch : Z) : Prop := 48 <= ch <= 57.

Lemma digit_any fuel c x : enough fuel -> exists x' d, next_digit fuel c x = Done (x', d) /\ state x' /\ is_digit (d + 48).
Proof.
  intros F. destruct (ranged_any fuel c x 0 9 F ltac:(lia) ltac:(lia) ltac:(lia)) as (x' & d & E & X & R).
  exists x', d. split; [exact E|]. split; [exact X|]. unfold is_digit. lia.
Qed.

Lemma avoid_zero_reach fuel c : enough fuel -> forall rounds k x ch, state x -> is_digit ch ->
  reach x k -> (0 < k)%nat -> Z.of_nat k <= 2 ^ 64 -> (k <= rounds)%nat ->
  exists x' ch', avoid_zero rounds fuel c x ch = Done (x', ch') /\ state x' /\ is_digit ch' /\ ch' <> 48.
Proof.
  intros F. induction rounds as [|rounds IH]; intros k x ch X D R K L LE; [lia|].
  cbn [avoid_zero]. destruct (Z.eqb_spec ch 48) as [->|N]; [|exists x, ch; split; [reflexivity|]; split; [exact X|]; split; [exact D|exact N]].
  unfold next_digit. destruct (ranged_spec fuel c x k 0 9 F ltac:(lia) ltac:(lia) ltac:(lia) R K L) as (x' & k' & E & X' & R' & L').
  rewrite E. cbn [andthen]. change (9 - 0 + 1) with 10. rewrite Z.add_0_r.
  pose proof (part_range 10 _ ltac:(lia) (mix_range _ X')) as P.
  destruct k' as [|k'].
  - apply (reach_zero x' X') in R'. subst x'. change (mix 1 * 10 / 2 ^ 64 + 48) with 50.
    exists 1, 50. split; [destruct rounds; reflexivity|]. split; [exact X'|]. unfold is_digit. lia.
  - apply (IH (S k')); [exact X'|unfold is_digit; lia|exact R'|lia|lia|lia].
Qed.

Lemma avoid_zero_any fuel c x ch : enough fuel -> state x -> is_digit ch ->
  exists x' ch', avoid_zero fuel fuel c x ch = Done (x', ch') /\ state x' /\ is_digit ch' /\ ch' <> 48.
Proof.
  intros F X D. destruct (reach_exists x) as (k & R & K & L). unfold enough in F.
  apply (avoid_zero_reach fuel c F fuel k x ch X D R K L). lia.
Qed.

Lemma bool_any c x : exists x' b, next_bool c x = (x', b) /\ state x'.
Proof. unfold next_bool. rewrite next_spec. eexists; eexists; split; [reflexivity|apply advance_range]. Qed.

(** *** The text *)
Lemma put_Done buffer ch : (length buffer < 4096)%nat -> put buffer ch = Done (buffer ++ [ch]).
Proof. intros L. unfold put, buffer_size. destruct (Z.ltb_spec (Z.of_nat (length buffer)) 4096); [reflexivity|lia]. Qed.

(** Without a point ahead *)
Lemma digits_plain fuel c location : enough fuel -> forall n i x buffer,
  state x -> 0 < i -> location < i \/ i + Z.of_nat n <= location -> (length buffer + n < 4096)%nat ->
  exists x' ds, digits_loop fuel c location n i x buffer = Done (x', buffer ++ ds) /\
    state x' /\ length ds = n /\ Forall is_digit ds.
Proof.
  intros F. induction n as [|n IH]; intros i x buffer X I A L.
  - exists x, []. rewrite app_nil_r. split; [reflexivity|]. split; [exact X|]. split; [reflexivity|constructor].
  - cbn [digits_loop]. replace (i =? location) with false by (symmetry; apply Z.eqb_neq; lia). cbn [andthen].
    destruct (digit_any fuel c x F) as (x1 & d & E & X1 & D). rewrite E. cbn [andthen].
    replace (i =? 0) with false by (symmetry; apply Z.eqb_neq; lia). cbn [andb andthen].
    rewrite put_Done by lia. cbn [andthen].
    destruct (IH (i + 1) x1 (buffer ++ [d + 48]) X1 ltac:(lia) ltac:(lia) ltac:(rewrite app_length; cbn [length]; lia)) as (x' & ds & E' & X' & LD & FD).
    exists x', ((d + 48) :: ds). rewrite E', <- app_assoc. split; [reflexivity|]. split; [exact X'|].
    split; [cbn [length]; lia|constructor; assumption].
Qed.

Lemma digits_point fuel c location : enough fuel -> forall n i x buffer,
  state x -> 0 < i -> i <= location < i + Z.of_nat n -> (length buffer + n + 1 < 4096)%nat ->
  exists x' a b, digits_loop fuel c location n i x buffer = Done (x', buffer ++ a ++ 46 :: b) /\
    state x' /\ Z.of_nat (length a) = location - i /\ (length a + length b = n)%nat /\ Forall is_digit a /\ Forall is_digit b.
Proof.
  intros F. induction n as [|n IH]; intros i x buffer X I A L; [lia|].
  cbn [digits_loop]. destruct (Z.eqb_spec i location) as [EQ|NE].
  - rewrite put_Done by lia. cbn [andthen].
    destruct (digit_any fuel c x F) as (x1 & d & E & X1 & D). rewrite E. cbn [andthen].
    replace (i =? 0) with false by (symmetry; apply Z.eqb_neq; lia). cbn [andb andthen].
    rewrite put_Done by (rewrite app_length; cbn [length]; lia). cbn [andthen].
    destruct (digits_plain fuel c location F n (i + 1) x1 ((buffer ++ [46]) ++ [d + 48]) X1 ltac:(lia) ltac:(lia)
      ltac:(rewrite !app_length; cbn [length]; lia)) as (x' & ds & E' & X' & LD & FD).
    exists x', [], ((d + 48) :: ds). rewrite E', <- !app_assoc. split; [reflexivity|]. split; [exact X'|].
    split; [cbn [length]; lia|]. split; [cbn [length]; lia|]. split; [constructor|constructor; assumption].
  - cbn [andthen]. destruct (digit_any fuel c x F) as (x1 & d & E & X1 & D). rewrite E. cbn [andthen].
    replace (i =? 0) with false by (symmetry; apply Z.eqb_neq; lia). cbn [andb andthen].
    rewrite put_Done by lia. cbn [andthen].
    destruct (IH (i + 1) x1 (buffer ++ [d + 48]) X1 ltac:(lia) ltac:(lia) ltac:(rewrite app_length; cbn [length]; lia))
      as (x' & a & b & E' & X' & LA & LAB & FA & FB).
    exists x', ((d + 48) :: a), b. rewrite E', <- app_assoc. split; [reflexivity|]. split; [exact X'|].
    split; [cbn [length]; lia|]. split; [cbn [length]; lia|]. split; [constructor; assumption|exact FB].
Qed.

Lemma is_digit_digits l : Forall is_digit l -> all_digits l.
Proof.
  intros F. eapply Forall_impl; [|exact F]. intros ch R. unfold digit, is_digit in *.
  apply andb_true_iff. split; apply Z.leb_le; lia.
Qed.

(** The digits and the point make the integer part and the fraction of a JSON number. *)
Lemma digits_all fuel c location n x buffer : enough fuel -> state x ->
  1 <= location <= n -> n <= 2000 -> (length buffer <= 1)%nat ->
  exists x' ip fp fr, digits_loop fuel c location (Z.to_nat n) 0 x buffer = Done (x', buffer ++ ip ++ fr) /\
    state x' /\ json_int ip /\ json_frac fp fr /\ Forall is_digit ip /\ Forall is_digit fp /\
    Z.of_nat (length (ip ++ fp)) = n /\ (length fr <= S (length fp))%nat.
Proof.
  intros F X LOC N L. destruct (Z.to_nat n) as [|m] eqn:EN; [lia|]. cbn [digits_loop].
  replace (0 =? location) with false by (symmetry; apply Z.eqb_neq; lia). cbn [andthen].
  destruct (digit_any fuel c x F) as (x1 & d & E & X1 & D). rewrite E. cbn [andthen]. change (0 =? 0) with true. cbn [andb].
  assert (H : exists x2 ch, (if negb (1 =? location) then avoid_zero fuel fuel c x1 (d + 48) else Done (x1, d + 48)) = Done (x2, ch) /\
    state x2 /\ is_digit ch /\ (location <> 1 -> ch <> 48)).
  { destruct (Z.eqb_spec 1 location) as [E1|E1]; cbn [negb].
    - exists x1, (d + 48). split; [reflexivity|]. split; [exact X1|]. split; [exact D|]. lia.
    - destruct (avoid_zero_any fuel c x1 (d + 48) F X1 D) as (x2 & ch & E2 & X2 & D2 & N2).
      exists x2, ch. split; [exact E2|]. split; [exact X2|]. split; [exact D2|]. intros _. exact N2. }
  destruct H as (x2 & ch & E2 & X2 & D2 & N2). rewrite E2. cbn [andthen].
  rewrite put_Done by lia. cbn [andthen]. change (0 + 1) with 1.
  assert (JI : forall l, Forall is_digit l -> (location = 1 -> l = []) -> json_int (ch :: l)).
  { intros l FL E1. destruct (Z.eq_dec ch 48) as [->|NZ].
    - left. f_equal. apply E1. destruct (Z.eq_dec location 1) as [e|e]; [exact e|]. exfalso. exact (N2 e eq_refl).
    - right. exists ch, l. split; [reflexivity|]. unfold is_digit in D2. split; [lia|apply is_digit_digits; exact FL]. }
  destruct (Z.eq_dec location n) as [EQ|NE].
  - destruct (digits_plain fuel c location F m 1 x2 (buffer ++ [ch]) X2 ltac:(lia) ltac:(lia) ltac:(rewrite app_length; cbn [length]; lia))
      as (x' & ds & E' & X' & LD & FD).
    exists x', (ch :: ds), [], []. rewrite E', <- app_assoc, app_nil_r. split; [reflexivity|]. split; [exact X'|].
    split; [apply JI; [exact FD|]; intros E1; destruct ds; [reflexivity|cbn [length] in LD; lia]|].
    split; [left; split; reflexivity|]. split; [constructor; assumption|]. split; [constructor|].
    split; cbn [length]; lia.
  - destruct (digits_point fuel c location F m 1 x2 (buffer ++ [ch]) X2 ltac:(lia) ltac:(lia) ltac:(rewrite app_length; cbn [length]; lia))
      as (x' & a & b & E' & X' & LA & LAB & FA & FB).
    exists x', (ch :: a), b, (46 :: b). rewrite E', <- !app_assoc. split; [reflexivity|]. split; [exact X'|].
    split; [apply JI; [exact FA|]; intros E1; destruct a; [reflexivity|cbn [length] in LA; lia]|].
    split; [right; split; [intros ->; cbn [length] in LAB; lia|]; split; [apply is_digit_digits; exact FB|reflexivity]|].
    split; [constructor; assumption|]. split; [exact FB|].
    split; [cbn [app length]; rewrite app_length; lia|cbn [length]; lia].
Qed.

Lemma exponent_digits fuel c : enough fuel -> forall n x buffer, state x -> (length buffer + n < 4096)%nat ->
  exists x' ds, exponent_loop fuel c n x buffer = Done (x', buffer ++ ds) /\ state x' /\ length ds = n /\ Forall is_digit ds.
Proof.
  intros F. induction n as [|n IH]; intros x buffer X L.
  - exists x, []. rewrite app_nil_r. split; [reflexivity|]. split; [exact X|]. split; [reflexivity|constructor].
  - cbn [exponent_loop]. destruct (digit_any fuel c x F) as (x1 & d & E & X1 & D). rewrite E. cbn [andthen].
    rewrite put_Done by lia. cbn [andthen].
    destruct (IH x1 (buffer ++ [d + 48]) X1 ltac:(rewrite app_length; cbn [length]; lia)) as (x' & ds & E' & X' & LD & FD).
    exists x', ((d + 48) :: ds). rewrite E', <- app_assoc. split; [reflexivity|]. split; [exact X'|].
    split; [cbn [length]; lia|constructor; assumption].
Qed.

Lemma exponent_any fuel c x buffer : enough fuel -> state x -> (length buffer < 4000)%nat ->
  exists x' e ex, exponent_part fuel c x buffer = Done (x', buffer ++ ex) /\ state x' /\
    json_exp e ex /\ Z.abs e <= 999 /\ (length ex <= 5)%nat /\ Forall (fun ch => 33 <= ch < 128) ex.
Proof.
  intros F X L. unfold exponent_part. destruct (bool_any c x) as (x1 & b & E1 & X1). rewrite E1. destruct b.
  2:{ exists x1, 0, []. rewrite app_nil_r. split; [reflexivity|]. split; [exact X1|]. split; [left; split; reflexivity|].
      split; [cbn; lia|]. split; [cbn [length]; lia|constructor]. }
  destruct (bool_any c x1) as (x2 & lower & E2 & X2). rewrite E2. cbv zeta. rewrite put_Done by lia. cbn [andthen].
  destruct (bool_any c x2) as (x3 & minus & E3 & X3). rewrite E3.
  set (m := if lower then 101 else 69). assert (M : m = 101 \/ m = 69) by (unfold m; destruct lower; auto).
  assert (H : exists x4 sg,
    (if minus then do* buffer0 := put (buffer ++ [m]) 45 in Done (x3, buffer0)
     else let '(x, plus) := next_bool c x3 in
          if plus : bool then do* buffer0 := put (buffer ++ [m]) 43 in Done (x, buffer0) else Done (x, buffer ++ [m]))
    = Done (x4, buffer ++ m :: sg) /\ state x4 /\ ((sg = [45] /\ minus = true) \/ ((sg = [] \/ sg = [43]) /\ minus = false))).
  { destruct minus.
    - rewrite put_Done by (rewrite app_length; cbn [length]; lia). cbn [andthen]. exists x3, [45].
      rewrite <- app_assoc. split; [reflexivity|]. split; [exact X3|]. left. split; reflexivity.
    - destruct (bool_any c x3) as (x4 & plus & E4 & X4). rewrite E4. destruct plus.
      + rewrite put_Done by (rewrite app_length; cbn [length]; lia). cbn [andthen]. exists x4, [43].
        rewrite <- app_assoc. split; [reflexivity|]. split; [exact X4|]. right. split; [right|]; reflexivity.
      + exists x4, []. split; [reflexivity|]. split; [exact X4|]. right. split; [left|]; reflexivity. }
  destruct H as (x4 & sg & E4 & X4 & SG). rewrite E4. cbn [andthen].
  assert (LS : (length sg <= 1)%nat) by (destruct SG as [(-> & _)|([->| ->] & _)]; cbn; lia).
  destruct (ranged_any fuel c x4 1 3 F ltac:(lia) ltac:(lia) ltac:(lia)) as (x5 & n & E5 & X5 & N). rewrite E5. cbn [andthen].
  destruct (exponent_digits fuel c F (Z.to_nat n) x5 (buffer ++ m :: sg) X5 ltac:(rewrite app_length; cbn [length]; lia))
    as (x6 & ds & E6 & X6 & LD & FD).
  rewrite E6. pose proof (is_digit_digits ds FD) as AD. pose proof (digits_value_range ds AD) as V.
  assert (V9 : digits_value ds <= 999).
  { assert (10 ^ Z.of_nat (length ds) <= 10 ^ 3) by (apply Z.pow_le_mono_r; lia). change (10 ^ 3) with 1000 in *. lia. }
  exists x6, (if minus then - digits_value ds else digits_value ds), (m :: sg ++ ds).
  split; [rewrite <- app_assoc; reflexivity|]. split; [exact X6|].
  split.
  { right. exists m, sg, ds. split; [reflexivity|]. split; [exact M|]. split; [intros ->; cbn [length] in LD; lia|].
    split; [exact AD|]. destruct SG as [(-> & ->)|([->| ->] & ->)]; [left; split; reflexivity|right; split; [left|]; reflexivity|right; split; [right|]; reflexivity]. }
  split; [destruct minus; lia|]. split; [cbn [length]; rewrite app_length; lia|].
  constructor; [destruct M; lia|]. apply Forall_app. split.
  - destruct SG as [(-> & _)|([->| ->] & _)]; repeat (constructor; [lia|]); constructor.
  - eapply Forall_impl; [|exact FD]. unfold is_digit. intros; lia.
Qed.

(** *** Statements *)
(** The engine's state is a uint64_t. *)
Definition seed (x : Z) : Prop := 0 <= x < 2 ^ 64.

(** Texts as the programs build them: JSON numbers of at most [n] digits, with an
    exponent of at most three, that fit the buffer with their null character. *)
Definition random_text (n : Z) (text : list Z) : Prop :=
  exists neg ip fp e, json_number text neg ip fp e /\
    1 <= Z.of_nat (length (ip ++ fp)) <= n /\ Z.abs e <= 999 /\ Z.of_nat (length text) <= n + 7.

(** C64: for every seed, the function that builds a text ends, with no write
    outside its buffer and no other undefined behaviour; the text is a JSON number. *)
Theorem random_text_built :
  forall (short : bool) (fuel : nat) (c : cfg) (x : Z), seed x -> 2 ^ 64 <= Z.of_nat fuel ->
  exists x' text, build_random_string short fuel c x = Done (x', text) /\ seed x' /\
    random_text (if short then 19 else 2000) text.
Proof.
  intros short fuel c x _ F. unfold build_random_string.
  destruct (bool_any c x) as (x1 & minus & E1 & X1). rewrite E1.
  assert (H : exists sg, (if minus then put [] 45 else Done []) = Done sg /\ sg = (if minus then [45] else []))
    by (destruct minus; eexists; split; reflexivity).
  destruct H as (sg & E2 & SG). rewrite E2. cbn [andthen].
  assert (LS : (length sg <= 1)%nat) by (subst sg; destruct minus; cbn; lia).
  assert (H : exists x3 n, draw_digit_count short fuel c x1 = Done (x3, n) /\ state x3 /\ 1 <= n <= (if short then 19 else 2000)).
  { unfold draw_digit_count. destruct short.
    - destruct (ranged_any fuel c x1 1 19 F ltac:(lia) ltac:(lia) ltac:(lia)) as (y & n & E & Y & N). exists y, n. auto.
    - destruct (ranged_any fuel c x1 1 100 F ltac:(lia) ltac:(lia) ltac:(lia)) as (y & n & E & Y & N). rewrite E. cbn [andthen].
      destruct (n =? 100); [|exists y, n; split; [reflexivity|]; split; [exact Y|lia]].
      destruct (ranged_any fuel c y 1 2000 F ltac:(lia) ltac:(lia) ltac:(lia)) as (z & m & E' & Y' & M). exists z, m. auto. }
  destruct H as (x3 & n & E3 & X3 & N). rewrite E3. cbn [andthen]. set (top := if short then 19 else 2000) in *.
  assert (TOP : top <= 2000) by (unfold top; destruct short; lia).
  destruct (ranged_any fuel c x3 1 n F ltac:(lia) ltac:(lia) ltac:(lia)) as (x4 & loc & E4 & X4 & LOC). rewrite E4. cbn [andthen].
  destruct (digits_all fuel c loc n x4 sg F X4 LOC ltac:(lia) LS) as (x5 & ip & fp & fr & E5 & X5 & JI & JF & DI & DF & LN & LF).
  rewrite E5. cbn [andthen]. rewrite app_length in LN.
  assert (L1 : (length (sg ++ ip ++ fr) <= S (S (Z.to_nat n)))%nat) by (rewrite !app_length; lia).
  destruct (exponent_any fuel c x5 (sg ++ ip ++ fr) F X5 ltac:(lia)) as (x6 & e & ex & E6 & X6 & JE & AE & LE & _).
  rewrite E6. cbn [andthen]. rewrite put_Done by (rewrite app_length; lia). cbn [andthen].
  exists x6, ((sg ++ ip ++ fr) ++ ex). split; [reflexivity|]. split; [exact X6|].
  exists minus, ip, fp, e. split; [|split; [rewrite app_length; lia|split; [exact AE|rewrite app_length; lia]]].
  exists fr, ex. split; [rewrite SG, <- !app_assoc; reflexivity|]. split; [exact JI|]. split; [exact JF|exact JE].
Qed.
Print Assumptions random_text_built.

(** *** The checks *)
Lemma digits_ascii l : all_digits l -> Forall (fun ch => 33 <= ch < 128) l.
Proof.
  intros A. eapply Forall_impl; [|exact A]. intros ch D. unfold digit in D. rewrite andb_true_iff, !Z.leb_le in D. lia.
Qed.

Lemma json_ascii p neg ip fp e : json_number p neg ip fp e -> Forall (fun ch => 33 <= ch < 128) p.
Proof.
  intros (fr & ex & -> & JI & JF & JE). apply Forall_app. split; [destruct neg; repeat (constructor; [lia|]); constructor|].
  apply Forall_app. split; [|apply Forall_app; split].
  - destruct JI as [->|(d & ds & -> & D & A)]; [constructor; [lia|constructor]|constructor; [lia|apply digits_ascii; exact A]].
  - destruct JF as [(_ & ->)|(_ & A & ->)]; [constructor|constructor; [lia|apply digits_ascii; exact A]].
  - destruct JE as [(-> & _)|(m & sg & ds & -> & M & _ & A & SG)]; [constructor|]. constructor; [lia|].
    apply Forall_app. split; [|apply digits_ascii; exact A].
    destruct SG as [(-> & _)|([->| ->] & _)]; repeat (constructor; [lia|]); constructor.
Qed.

Lemma json_is_number c p neg ip fp e : json_number p neg ip fp e -> number (rules_of c general) p neg ip fp e [].
Proof.
  intros (fr & ex & -> & JI & JF & JE). apply number_text_number; [split; [reflexivity|cbn; intuition discriminate]|].
  assert (AI : all_digits ip /\ ip <> []).
  { destruct JI as [->|(d & ds & -> & D & A)]; [split; [repeat constructor|discriminate]|]. split; [|discriminate].
    constructor; [|exact A]. unfold digit. apply andb_true_iff. split; apply Z.leb_le; lia. }
  assert (MO : forall hp, mantissa_ok (rules_of c general) ip hp fp).
  { intros hp. unfold mantissa_ok. cbn. destruct AI as (_ & NE). destruct ip; [congruence|discriminate]. }
  exists (if neg then [45] else []), (match fr with [] => false | _ => true end), fr, ex.
  split; [reflexivity|]. split; [destruct neg; [left|right; left]; split; reflexivity|]. split; [apply AI|].
  split; [destruct JF as [(-> & ->)|(NE & A & ->)]; [left; auto|right; split; [reflexivity|]; split; [exact A|reflexivity]]|].
  split; [apply MO|].
  destruct JE as [(-> & ->)|(m & sg & ds & -> & M & NE & A & SG)]; [left; split; [reflexivity|]; split; [reflexivity|]; right; reflexivity|].
  right. exists [m], sg, ds. split; [reflexivity|]. split; [exact A|]. split; [exact NE|]. split; [exact SG|].
  left. split; [reflexivity|]. destruct M as [->| ->]; auto.
Qed.

Lemma json_read c u t p neg ip fp e : t <> F16 -> json_number p neg ip fp e -> Z.of_nat (length p) < 268000000 ->
  exists b x, from_chars_float c u t p f_general =
      Ok {| r_ptr := []; r_ec := x; r_value := Some (with_sign (format_of t) neg b) |} /\
    x <> InvalidArgument /\ nearest_even (format_of t) (number_value ip fp e) b.
Proof.
  intros T J L. pose proof (json_is_number c _ _ _ _ _ J) as N. pose proof (json_ascii _ _ _ _ _ J) as A.
  assert (G : good_text c u general p).
  { apply ascii_good; [eapply Forall_impl; [|exact A]; intros; cbv beta in *; lia|lia|reflexivity]. }
  assert (SA : starts_at c general p p).
  { unfold starts_at. destruct (skips_space c general); [|reflexivity]. exists []. split; [reflexivity|]. split; [constructor|].
    destruct p as [|ch p]; [exact I|]. inversion A as [|? ? R _]; subst. cbn [not_at]. unfold space. intros S.
    rewrite orb_true_iff, andb_true_iff, !Z.leb_le, Z.eqb_eq in S. lia. }
  destruct (accepted_number c u t general p p neg ip fp e [] G SA N (or_introl L)) as (b & x & E & NI & _ & NE).
  exists b, x. split; [exact E|]. split; [exact NI|]. exact (NE T).
Qed.

Lemma equal_spec t n a m b : 0 <= a <= infinity (format_of t) -> 0 <= b <= infinity (format_of t) ->
  fp_equal t (with_sign (format_of t) n a) (with_sign (format_of t) m b) =
  ((if n then - a else a) =? (if m then - b else b)).
Proof.
  intros A B. pose proof (greater_spec t n a m b A B) as G1. pose proof (greater_spec t m b n a B A) as G2.
  pose proof (sign_room t) as S. unfold fp_equal. rewrite !with_sign_eq, infinity_eq.
  set (s := 2 ^ sign_index t) in *. set (i := infinity (format_of t)) in *.
  assert (MOD : forall (n : bool) (a : Z), 0 <= a <= i -> (a + (if n then s else 0)) mod s = a).
  { clear - S. intros n a H. destruct n; [rewrite <- (Z.mul_1_l s) at 1; rewrite Z.mod_add by lia|rewrite Z.add_0_r]; apply Z.mod_small; lia. }
  rewrite !MOD by assumption.
  replace (i <? a) with false by (symmetry; apply Z.ltb_ge; lia).
  replace (i <? b) with false by (symmetry; apply Z.ltb_ge; lia). cbn [negb andb].
  assert (KEY : forall (n : bool) (a : Z), 0 <= a <= i -> (if s <=? a + (if n then s else 0) then - (a + (if n then s else 0) - s) else a + (if n then s else 0)) = (if n then - a else a)).
  { clear - S. intros n a H. destruct n.
    - replace (s <=? a + s) with true by (symmetry; apply Z.leb_le; lia). lia.
    - replace (s <=? a + 0) with false by (symmetry; apply Z.leb_gt; lia). lia. }
  rewrite !KEY by assumption. reflexivity.
Qed.

(** [v] is what a correct strtod says about the text of the number with sign
    [neg] and absolute value [q]. *)
Definition correct_answer (t : ftype) (neg : bool) (q : Q) (v : Z) : Prop :=
  exists b, v = with_sign (format_of t) neg b /\ nearest_even (format_of t) q b.

(** strtod_l and strtof_l: where they parse a JSON number, the answer is correctly
    rounded.  (They may also give up.) *)
Definition correct_reader (t : ftype) (read : list Z -> option Z) : Prop :=
  forall p neg ip fp e v, json_number p neg ip fp e -> Z.of_nat (length p) <= 2007 -> read p = Some v ->
  correct_answer t neg (number_value ip fp e) v.

(** C64: the check of a JSON number succeeds exactly if strtod's answer is the
    correctly rounded number (either zero will do for a zero). *)
Theorem random_check_exact :
  forall (c : cfg) (u : uc) (t : ftype) (text : list Z) (neg : bool) (ip fp : list Z) (e : Z) (n : bool) (a : Z),
  t <> F16 -> json_number text neg ip fp e -> Z.of_nat (length text) <= 2007 -> 0 <= a <= infinity (format_of t) ->
  exists answer, check c u t (Some (with_sign (format_of t) n a)) text = Done answer /\
    (answer = true <-> nearest_even (format_of t) (number_value ip fp e) a /\ (n = neg \/ a = 0)).
Proof.
  intros c u t text neg ip fp e n a T J L A. destruct (json_read c u t text neg ip fp e T J ltac:(lia)) as (b & x & E & NI & NE).
  unfold check, check_read, library_parser. rewrite E. cbn [lift andthen r_ec r_ptr r_value].
  exists (fp_equal t (with_sign (format_of t) neg b) (with_sign (format_of t) n a)).
  split; [destruct x; [reflexivity|congruence|reflexivity]|].
  rewrite equal_spec by (first [apply NE|exact A]). rewrite Z.eqb_eq. pose proof (proj1 NE) as B. split.
  - intros EQ. assert (b = a) by (destruct neg, n; lia). subst b. split; [exact NE|].
    destruct neg, n; try (left; reflexivity); right; lia.
  - intros (NA & O). assert (a = b) by (eapply nearest_even_unique; eassumption). subst b.
    destruct O as [->| ->]; [reflexivity|]. destruct neg, n; reflexivity.
Qed.
Print Assumptions random_check_exact.

(** C64: for every seed and every number of texts, with strtod_l and strtof_l
    correct, the test ends and succeeds; every build, every character type. *)
Theorem random_test_passes :
  forall (short : bool) (fuel : nat) (c : cfg) (u : uc) (strtod strtof : list Z -> option Z) (volume : nat) (x : Z),
  seed x -> 2 ^ 64 <= Z.of_nat fuel -> correct_reader F64 strtod -> correct_reader F32 strtof ->
  tester short fuel c u strtod strtof volume x = Done true.
Proof.
  intros short fuel c u strtod strtof volume. induction volume as [|volume IH]; intros x X F RD RF; [reflexivity|].
  unfold tester. cbn [tester_read]. destruct (random_text_built short fuel c x X F) as (x' & text & E & X' & neg & ip & fp & e & J & _ & _ & LT).
  rewrite E. cbn [andthen].
  assert (L : Z.of_nat (length text) <= 2007) by (destruct short; lia).
  assert (CK : forall t read, t <> F16 -> correct_reader t read -> check c u t (read text) text = Done true).
  { intros t read T R. destruct (read text) as [v|] eqn:EV; [|reflexivity].
    destruct (R text neg ip fp e v J L EV) as (b & -> & NE).
    destruct (random_check_exact c u t text neg ip fp e neg b T J L (proj1 NE)) as (answer & EA & H).
    rewrite EA. f_equal. apply H. split; [exact NE|left; reflexivity]. }
  unfold check in CK. rewrite (CK F64 strtod ltac:(discriminate) RD). cbn [andthen negb].
  rewrite (CK F32 strtof ltac:(discriminate) RF). cbn [andthen negb].
  apply IH; assumption.
Qed.
Print Assumptions random_test_passes.

(** The texts of a run, one after the other. *)
Inductive built (short : bool) (fuel : nat) (c : cfg) : nat -> Z -> list (list Z) -> Prop :=
| built_nil x : built short fuel c 0 x []
| built_cons n x x' text texts : build_random_string short fuel c x = Done (x', text) ->
    built short fuel c n x' texts -> built short fuel c (S n) x (text :: texts).

(** The answer, if there is one, is the correctly rounded number the text denotes. *)
Definition agrees (t : ftype) (answer : option Z) (text : list Z) : Prop :=
  forall v neg ip fp e, answer = Some v -> json_number text neg ip fp e ->
  exists n b, v = with_sign (format_of t) n b /\ nearest_even (format_of t) (number_value ip fp e) b /\ (n = neg \/ b = 0).

(** strtod_l never says NaN. *)
Definition no_nan (t : ftype) (read : list Z -> option Z) : Prop :=
  forall p v, read p = Some v -> exists n a, v = with_sign (format_of t) n a /\ 0 <= a <= infinity (format_of t).

Lemma with_sign_inj t n a m b : 0 <= a <= infinity (format_of t) -> 0 <= b <= infinity (format_of t) ->
  with_sign (format_of t) n a = with_sign (format_of t) m b -> n = m /\ a = b.
Proof.
  intros A B. rewrite !with_sign_eq. pose proof (sign_room t) as S. destruct n, m; intros E; split; try reflexivity; lia.
Qed.

Lemma check_agrees c u t read text neg ip fp e : t <> F16 -> no_nan t read ->
  json_number text neg ip fp e -> Z.of_nat (length text) <= 2007 ->
  exists answer, check c u t (read text) text = Done answer /\ (answer = true <-> agrees t (read text) text).
Proof.
  intros T NN J L. destruct (read text) as [v|] eqn:EV.
  2:{ exists true. split; [reflexivity|]. split; [|reflexivity]. intros _ v ? ? ? ? H. discriminate H. }
  destruct (NN text v EV) as (n & a & -> & A).
  destruct (json_read c u t text neg ip fp e T J ltac:(lia)) as (b & x & E & _ & NE).
  destruct (random_check_exact c u t text neg ip fp e n a T J L A) as (answer & EA & H).
  exists answer. split; [exact EA|]. rewrite H. split.
  - intros (NA & O) v' neg' ip' fp' e' EQ J'. injection EQ as <-. exists n, a. split; [reflexivity|].
    destruct (json_read c u t text neg' ip' fp' e' T J' ltac:(lia)) as (b' & x' & E' & _ & NE').
    rewrite E' in E. injection E as _ E. apply with_sign_inj in E; [|apply NE'|apply NE]. destruct E as (-> & ->).
    split; [|exact O]. rewrite (nearest_even_unique t (number_value ip fp e) a b NA NE). exact NE'.
  - intros AG. destruct (AG _ _ _ _ _ eq_refl J) as (m & d & EQ & ND & O).
    apply with_sign_inj in EQ; [|exact A|apply ND]. destruct EQ as (-> & ->). split; assumption.
Qed.

(** C64: for every seed and every number of texts the test ends, and it succeeds
    exactly if strtod_l and strtof_l were right about every text; every build,
    every character type. *)
Theorem random_test_exact :
  forall (short : bool) (fuel : nat) (c : cfg) (u : uc) (strtod strtof : list Z -> option Z) (volume : nat) (x : Z),
  seed x -> 2 ^ 64 <= Z.of_nat fuel -> no_nan F64 strtod -> no_nan F32 strtof ->
  exists texts answer, built short fuel c volume x texts /\
    tester short fuel c u strtod strtof volume x = Done answer /\
    (answer = true <-> Forall (fun text => agrees F64 (strtod text) text /\ agrees F32 (strtof text) text) texts).
Proof.
  intros short fuel c u strtod strtof volume x X F ND NF. revert x X.
  induction volume as [|volume IH]; intros x X.
  { exists [], true. split; [constructor|]. split; [reflexivity|]. split; [intros _; constructor|reflexivity]. }
  destruct (random_text_built short fuel c x X F) as (x' & text & E & X' & neg & ip & fp & e & J & _ & _ & LT).
  assert (L : Z.of_nat (length text) <= 2007) by (destruct short; lia).
  destruct (IH x' X') as (texts & answer & B & ET & H).
  destruct (check_agrees c u F64 strtod text neg ip fp e ltac:(discriminate) ND J L) as (a1 & E1 & H1).
  destruct (check_agrees c u F32 strtof text neg ip fp e ltac:(discriminate) NF J L) as (a2 & E2 & H2).
  exists (text :: texts), (a1 && a2 && answer). split; [econstructor; eassumption|]. split.
  - unfold tester. cbn [tester_read]. unfold check in E1, E2. rewrite E. cbn [andthen]. rewrite E1. cbn [andthen]. destruct a1; [|reflexivity]. cbn [negb andb].
    rewrite E2. cbn [andthen]. destruct a2; [|reflexivity]. exact ET.
  - rewrite !andb_true_iff, H1, H2, H. split.
    + intros ((A1 & A2) & A). constructor; [split; assumption|exact A].
    + intros A. inversion A as [|? ? (A1 & A2) A3]; subst. auto.
Qed.
Print Assumptions random_test_exact.

(** A parser that always gives an answer, and a value unless the answer is invalid_argument. *)
Definition answers (read : list Z -> res result) : Prop :=
  forall p, exists r, read p = Ok r /\ (r_ec r <> InvalidArgument -> exists v, r_value r = Some v).

(** The parser reads the whole text, without invalid_argument, as the number that
    strtod says, if it says one. *)
Definition reads_as (t : ftype) (read : list Z -> res result) (expected : option Z) (text : list Z) : Prop :=
  forall v, expected = Some v ->
  exists x w, read text = Ok {| r_ptr := []; r_ec := x; r_value := Some w |} /\ x <> InvalidArgument /\ fp_equal t w v = true.

Lemma check_read_exact t read expected text : answers read ->
  exists answer, check_read t read expected text = Done answer /\ (answer = true <-> reads_as t read expected text).
Proof.
  intros A. unfold check_read, reads_as. destruct expected as [v|]; [|exists true; split; [reflexivity|]; split; [intros _ w H; discriminate H|reflexivity]].
  destruct (A text) as (r & E & V). rewrite E. cbn [lift andthen]. destruct r as [p x o]. cbn [r_ec r_ptr r_value] in *.
  destruct x.
  2:{ exists false. split; [reflexivity|]. split; [discriminate|]. intros H. destruct (H v eq_refl) as (x & w & H1 & H2 & _). congruence. }
  all: destruct V as (w & ->); [discriminate|]; destruct p as [|ch p];
    [exists (fp_equal t w v); split; [reflexivity|]; split;
       [intros H v' EV; injection EV as <-; eexists _, w; split; [reflexivity|]; split; [discriminate|exact H]
       |intros H; destruct (H v eq_refl) as (x & w' & H1 & _ & H3); congruence]
    |exists false; split; [reflexivity|]; split; [discriminate|]; intros H; destruct (H v eq_refl) as (x & w' & H1 & _); discriminate H1].
Qed.

(** C64: with any parsers that give answers, for every seed and every number of texts
    the test ends, and it succeeds exactly if the parsers read every text completely
    and agree with strtod_l and strtof_l about it. *)
Theorem random_test_any_parser :
  forall (short : bool) (fuel : nat) (c : cfg) (read64 read32 : list Z -> res result) (strtod strtof : list Z -> option Z)
    (volume : nat) (x : Z),
  seed x -> 2 ^ 64 <= Z.of_nat fuel -> answers read64 -> answers read32 ->
  exists texts answer, built short fuel c volume x texts /\
    tester_read short fuel c read64 read32 strtod strtof volume x = Done answer /\
    (answer = true <-> Forall (fun text => reads_as F64 read64 (strtod text) text /\ reads_as F32 read32 (strtof text) text) texts).
Proof.
  intros short fuel c read64 read32 strtod strtof volume x X F A64 A32. revert x X.
  induction volume as [|volume IH]; intros x X.
  { exists [], true. split; [constructor|]. split; [reflexivity|]. split; [intros _; constructor|reflexivity]. }
  destruct (random_text_built short fuel c x X F) as (x' & text & E & X' & _).
  destruct (IH x' X') as (texts & answer & B & ET & H).
  destruct (check_read_exact F64 read64 (strtod text) text A64) as (a1 & E1 & H1).
  destruct (check_read_exact F32 read32 (strtof text) text A32) as (a2 & E2 & H2).
  exists (text :: texts), (a1 && a2 && answer). split; [econstructor; eassumption|]. split.
  - cbn [tester_read]. rewrite E. cbn [andthen]. rewrite E1. cbn [andthen]. destruct a1; [|reflexivity]. cbn [negb andb].
    rewrite E2. cbn [andthen]. destruct a2; [|reflexivity]. exact ET.
  - rewrite !andb_true_iff, H1, H2, H. split.
    + intros ((A1 & A2) & A). constructor; [split; assumption|exact A].
    + intros A. inversion A as [|? ? (A1 & A2) A3]; subst. auto.
Qed.
Print Assumptions random_test_any_parser.

(** *** The numbers of the engine *)
(** C64: every value of a range is produced by the same number of the 64-bit
    numbers that are used, one run of 2^64 / s neighbours each; the others, fewer
    than [s], are drawn again. *)
Theorem ranged_int_unbiased :
  forall s : Z, 1 <= s <= 2 ^ 31 ->
  (forall r, 0 <= r < s -> exists first, forall v, 0 <= v < 2 ^ 64 ->
     (accepted s v /\ v * s / 2 ^ 64 = r) <-> first <= v < first + 2 ^ 64 / s) /\
  forall (fuel : nat) (c : cfg) (x min : Z), 0 <= min < 1000 -> s <= 2000 -> seed x ->
    let '(x', v) := next c x in
    (accepted s v -> next_ranged_int fuel c x min (min + s - 1) = Done (x', min + v * s / 2 ^ 64)) /\
    (~ accepted s v -> next_ranged_int (S fuel) c x min (min + s - 1) = next_ranged_int fuel c x' min (min + s - 1)).
Proof.
  intros s S. split.
  - intros r R. set (W := 2 ^ 64). pose proof (Z.div_mod W s ltac:(lia)) as DM. pose proof (Z.mod_pos_bound W s ltac:(lia)) as MB.
    set (t := W mod s) in *. set (k := W / s) in *.
    (* the first multiple of s from r * W + t on *)
    set (first := (r * W + t + (s - 1)) / s). exists first.
    pose proof (Z.div_mod (r * W + t + (s - 1)) s ltac:(lia)) as DF. pose proof (Z.mod_pos_bound (r * W + t + (s - 1)) s ltac:(lia)) as MF.
    fold first in DF. set (m := (r * W + t + (s - 1)) mod s) in *.
    intros v V. unfold accepted. fold W t.
    pose proof (Z.div_mod (v * s) W ltac:(unfold W; lia)) as DV. pose proof (Z.mod_pos_bound (v * s) W ltac:(unfold W; lia)) as MV.
    set (q := v * s / W) in *. set (l := (v * s) mod W) in *. clearbody q l m first k t. split.
    + intros (A & ->). split; nia.
    + intros (A & B). assert (LO : r * W + t <= v * s) by nia.
      assert (HI : v * s < r * W + W) by nia.
      assert (q = r) by nia. subst q. split; [nia|reflexivity].
  - intros fuel c x min MN S2 X. rewrite next_spec. pose proof (advance_range x) as X1.
    assert (SPLIT : forall fuel x, next_ranged_int fuel c x min (min + s - 1) =
      do* '(x, high) := redraw fuel c s ((2 ^ 64) mod s) (advance_state x) (mix (advance_state x) * s / 2 ^ 64)
        ((mix (advance_state x) * s) mod 2 ^ 64) in
      do* r := lift (chk 32 (to_signed 32 high + min)) in Done (x, r)).
    { clear x X X1. intros f x. unfold next_ranged_int. rewrite chk_Ok by lia. cbn [lift andthen]. rewrite chk_Ok by lia. cbn [lift andthen].
      replace (min + s - 1 - min + 1) with s by ring. rewrite u64_small by lia. cbv zeta. rewrite next_spec.
      pose proof (advance_range x) as X1. rewrite full_multiplication_spec by (first [apply mix_range; exact X1|lia]).
      replace (s =? 0) with false by (symmetry; apply Z.eqb_neq; lia). rewrite negated_mod by lia.
      destruct (Z.ltb_spec ((mix (advance_state x) * s) mod 2 ^ 64) s) as [L|L]; [reflexivity|].
      pose proof (Z.mod_pos_bound (2 ^ 64) s ltac:(lia)).
      destruct f; cbn [redraw]; (replace (_ <? _) with false by (symmetry; apply Z.ltb_ge; lia)); reflexivity. }
    split.
    + intros A. unfold accepted in A. rewrite SPLIT.
      assert (E : redraw fuel c s ((2 ^ 64) mod s) (advance_state x) (mix (advance_state x) * s / 2 ^ 64) ((mix (advance_state x) * s) mod 2 ^ 64)
        = Done (advance_state x, mix (advance_state x) * s / 2 ^ 64)).
      { destruct fuel; cbn [redraw]; (replace (_ <? _) with false by (symmetry; apply Z.ltb_ge; lia)); reflexivity. }
      rewrite E. cbn [andthen]. pose proof (part_range s _ ltac:(lia) (mix_range _ X1)) as P.
      rewrite WordLemmas.to_signed_small by lia. rewrite chk_Ok by lia. cbn [lift andthen]. rewrite Z.add_comm. reflexivity.
    + intros A. unfold accepted in A. rewrite !SPLIT. cbn [redraw].
      replace ((mix (advance_state x) * s) mod 2 ^ 64 <? (2 ^ 64) mod s) with true by (symmetry; apply Z.ltb_lt; lia).
      rewrite next_spec. rewrite full_multiplication_spec by (first [apply mix_range; apply advance_range|lia]). reflexivity.
Qed.
Print Assumptions ranged_int_unbiased.

(** The programs' own seed, 1234344: the first three texts of the short program are
    -9, -3.946e29 and -8301.000490948108179E-6; and of the long one -9 and
    -3946.625952979183010E9. *)
Example random_texts :
  build_random_string true 100 cfg_x86_64 1234344 = Done (16409548839615709713, [45; 57]) /\
  build_random_string true 100 cfg_x86_64 16409548839615709713 =
    Done (3326704554665675575, [45; 51; 46; 57; 52; 54; 101; 50; 57]) /\
  build_random_string true 100 cfg_x86_64 3326704554665675575 =
    Done (7083245549519905134, [45; 56; 51; 48; 49; 46; 48; 48; 48; 52; 57; 48; 57; 52; 56; 49; 48; 56; 49; 55; 57; 69; 45; 54]) /\
  build_random_string false 100 cfg_x86_64 1234344 = Done (16409548839615709713, [45; 57]) /\
  build_random_string false 100 cfg_x86_64 16409548839615709713 =
    Done (8690604343425193053, [45; 51; 57; 52; 54; 46; 54; 50; 53; 57; 53; 50; 57; 55; 57; 49; 56; 51; 48; 49; 48; 69; 57]).
Proof. vm_compute. repeat split; reflexivity. Qed.

(** A correct reader: the library itself. *)
Lemma library_is_correct_reader c u t : t <> F16 ->
  correct_reader t (fun p => match from_chars_float c u t p f_general with Ok r => r_value r | UB => None end).
Proof.
  intros T p neg ip fp e v J L E. destruct (json_read c u t p neg ip fp e T J ltac:(lia)) as (b & x & EQ & _ & NE).
  rewrite EQ in E. injection E as <-. exists b. split; [reflexivity|exact NE].
Qed.

(** The first two texts of the short program pass; a wrong strtod is noticed. *)
Example random_test_example :
  let read t p := match from_chars_float cfg_x86_64 Char_s t p f_general with Ok r => r_value r | UB => None end in
  tester true 100 cfg_x86_64 Char_s (read F64) (read F32) 2 1234344 = Done true /\
  tester true 100 cfg_x86_64 Char_s (read F64) (fun _ => Some 0) 2 1234344 = Done false /\
  tester true 100 cfg_x86_64 Char_s (fun _ => Some 0) (read F32) 2 1234344 = Done false.
Proof. vm_compute. repeat split; reflexivity. Qed.
