(** Bounds on the rounds of the arithmetic with large numbers: no number has
    more limbs than fit its buffer. *)
From Verif Require Import Machine Config Tables FastTable Chars Format ParseNumber Bigint DecToBin DigitComp
  FromChars Ints Cost CostErase CostBound.
Open Scope Z_scope.

(** At most [n] rounds, and the value has the property [Q]. *)
Definition does {A} (n : Z) (m : run A) (Q : A -> Prop) : Prop :=
  takes n m (fun _ => 0) /\ forall x, erase m = Ok x -> Q x.

Lemma does_seq {A B} n n0 (m : run A) (k : A -> run B) Q R :
  does n0 m Q -> (forall x, Q x -> does (n - n0) (k x) R) -> does n (seq m k) R.
Proof.
  intros [T F] H. split.
  - eapply takes_seq; [exact T|]. intros x E. cbv beta. replace (n - n0 + 0) with (n - n0) by lia. apply H, F, E.
  - intros y E. rewrite erase_seq in E. destruct (erase m) as [x|] eqn:EM; [|discriminate]. cbn in E.
    exact (proj2 (H x (F x eq_refl)) y E).
Qed.
Lemma does_lift {A} n (m : res A) (Q : A -> Prop) : 0 <= n -> (forall x, m = Ok x -> Q x) -> does n (lift m) Q.
Proof. intros H F. split; [apply takes_lift; auto|]. rewrite erase_lift. exact F. Qed.
Lemma does_ok {A} n (x : A) (Q : A -> Prop) : 0 <= n -> Q x -> does n (lift (Ok x)) Q.
Proof. intros H F. apply does_lift; [exact H|]. intros y E. injection E as <-. exact F. Qed.
Lemma does_pure {A} n (x : A) (Q : A -> Prop) : 0 <= n -> Q x -> does n (pure x) Q.
Proof. apply does_ok. Qed.
Lemma does_ub {A} n (Q : A -> Prop) : 0 <= n -> does n (lift UB) Q.
Proof. intros H. apply does_lift; [exact H|discriminate]. Qed.
Lemma does_tick {A} n (m : run A) Q : does (n - 1) m Q -> does n (tick m) Q.
Proof. intros [T F]. split; [apply takes_tick, T|]. rewrite erase_tick. exact F. Qed.
Lemma does_charge {A} n j (x : A) (Q : A -> Prop) : 0 <= j <= n -> Q x -> does n (charge j x) Q.
Proof. intros H F. split; [apply takes_charge; lia|]. intros y E. cbn in E. injection E as <-. exact F. Qed.
Lemma does_seq_lift {A B} n (m : res A) (k : A -> run B) R :
  (forall x, m = Ok x -> does n (k x) R) -> does n (seq (lift m) k) R.
Proof.
  intros H. split.
  - apply takes_seq_lift. intros x E. apply H, E.
  - intros y E. rewrite erase_seq, erase_lift in E. destruct m as [x|]; [|discriminate]. exact (proj2 (H x eq_refl) y E).
Qed.
Lemma does_weaken {A} n n0 (m : run A) (Q R : A -> Prop) :
  does n0 m Q -> n0 <= n -> (forall x, Q x -> R x) -> does n m R.
Proof. intros [T F] L W. split; [eapply takes_weaken; [exact T|intros; cbv beta; lia]|auto]. Qed.

Ltac dstep :=
  match goal with
  | |- does _ (seq (lift _) _) _ => apply does_seq_lift; intros
  | |- does _ (lift (Ok _)) _ => apply does_ok
  | |- does _ (lift UB) _ => apply does_ub
  | |- does _ (pure _) _ => apply does_pure
  | |- does _ (tick _) _ => apply does_tick
  | |- does _ (charge _ _) _ => apply does_charge
  | |- does _ (if ?b then _ else _) _ => destruct b eqn:?
  | |- does _ (match ?x with _ => _ end) _ => destruct x eqn:?
  end.

(** A number that fits its buffer. *)
Definition fits (c : cfg) (v : list Z) : Prop := vlen v <= bigint_limbs c.
Definition fits2 (c : cfg) (r : bool * list Z) : Prop := fits c (snd r).

Lemma vlen_nonneg v : 0 <= vlen v.
Proof. unfold vlen. lia. Qed.
Lemma vlen_cons x v : vlen (x :: v) = vlen v + 1.
Proof. unfold vlen. cbn [length]. lia. Qed.
Lemma vlen_app v w : vlen (v ++ w) = vlen v + vlen w.
Proof. unfold vlen. rewrite app_length. lia. Qed.
Lemma vlen_split n v : vlen (firstn n v) + vlen (skipn n v) = vlen v.
Proof. rewrite <- vlen_app, firstn_skipn. reflexivity. Qed.
Lemma vlen_firstn n v : vlen (firstn n v) <= Z.of_nat n.
Proof. unfold vlen. rewrite firstn_length. lia. Qed.
Lemma vlen_repeat x n : vlen (repeat x n) = Z.of_nat n.
Proof. unfold vlen. rewrite repeat_length. reflexivity. Qed.
Lemma limbs_pos c : 62 <= bigint_limbs c <= 125.
Proof. unfold bigint_limbs, limb_bits. destruct (limb64 c); vm_compute; split; discriminate. Qed.

Lemma try_push_fits c v x : fits c v -> fits2 c (try_push c v x).
Proof.
  intros H. unfold try_push, fits2, fits in *. destruct (vlen v <? bigint_limbs c) eqn:E; cbn [snd]; [|exact H].
  rewrite vlen_app. apply Z.ltb_lt in E. change (vlen [x]) with 1. lia.
Qed.
Lemma drop_zeros_len l : (length (drop_zeros l) <= length l)%nat.
Proof. induction l as [|x l IH]; cbn [drop_zeros]; [lia|]. destruct (x =? 0); cbn [length]; lia. Qed.
Lemma normalize_len v : vlen (normalize v) <= vlen v.
Proof.
  unfold normalize, vlen. rewrite rev_length. pose proof (drop_zeros_len (rev v)). rewrite rev_length in H. lia.
Qed.

Lemma add_carry_loop_does c : forall l carry,
  does (vlen l) (add_carry_loop_n c l carry) (fun r => vlen (fst r) = vlen l).
Proof.
  induction l as [|x l IH]; intros carry; cbn [add_carry_loop_n]; [dstep; [cbn; lia|reflexivity]|].
  rewrite vlen_cons. pose proof (vlen_nonneg l). dstep; [dstep; [lia|cbn [fst]; apply vlen_cons]|].
  destruct (scalar_add c x carry) as [s ov].
  eapply does_seq with (n0 := vlen l + 1); [dstep; replace (vlen l + 1 - 1) with (vlen l) by lia; apply IH|].
  intros [r cr] E. cbn [fst] in *. dstep; [lia|]. cbn [fst]. rewrite vlen_cons. lia.
Qed.
Lemma small_add_from_does c v y start : fits c v -> does (bigint_limbs c) (small_add_from_n c v y start) (fits2 c).
Proof.
  intros F. unfold small_add_from_n. pose proof (vlen_split (Z.to_nat start) v) as V. unfold fits in F.
  pose proof (vlen_nonneg (firstn (Z.to_nat start) v)). pose proof (vlen_nonneg (skipn (Z.to_nat start) v)).
  eapply does_seq; [apply add_carry_loop_does|]. intros [r cr] E. cbn [fst] in E.
  dstep; [lia|].
  assert (G : fits c (firstn (Z.to_nat start) v ++ r)) by (unfold fits; rewrite vlen_app; lia).
  destruct (negb (cr =? 0)); [apply try_push_fits, G|exact G].
Qed.
Lemma mul_loop_does c y : forall l carry,
  does (vlen l) (mul_loop_n c l y carry) (fun r => vlen (fst r) = vlen l).
Proof.
  induction l as [|x l IH]; intros carry; cbn [mul_loop_n]; [dstep; [cbn; lia|reflexivity]|].
  rewrite vlen_cons. pose proof (vlen_nonneg l).
  destruct (scalar_mul c x y carry) as [s ov].
  eapply does_seq with (n0 := vlen l + 1); [dstep; replace (vlen l + 1 - 1) with (vlen l) by lia; apply IH|].
  intros [r cr] E. cbn [fst] in *. dstep; [lia|]. cbn [fst]. rewrite vlen_cons. lia.
Qed.
Lemma small_mul_does c v y : fits c v -> does (bigint_limbs c) (small_mul_n c v y) (fits2 c).
Proof.
  intros F. unfold small_mul_n. unfold fits in F.
  eapply does_seq; [apply mul_loop_does|]. intros [r cr] E. cbn [fst] in E.
  dstep; [lia|].
  assert (G : fits c r) by (unfold fits; lia).
  destruct (negb (cr =? 0)); [apply try_push_fits, G|exact G].
Qed.
Lemma add_loop_does c : forall xs ys carry,
  does (vlen ys) (add_loop_n c xs ys carry) (fun r => vlen (fst r) = vlen xs).
Proof.
  induction xs as [|x xs IH]; intros [|y ys] carry; cbn [add_loop_n].
  - dstep; [cbn; lia|reflexivity].
  - dstep. apply vlen_nonneg.
  - dstep; [cbn; lia|reflexivity].
  - destruct (scalar_add c x y) as [s c1].
    destruct (if carry then scalar_add c s 1 else (s, false)) as [s2 c2]. rewrite !vlen_cons.
    pose proof (vlen_nonneg ys).
    eapply does_seq with (n0 := vlen ys + 1); [dstep; replace (vlen ys + 1 - 1) with (vlen ys) by lia; apply IH|].
    intros [r cr] E. cbn [fst] in *. dstep; [lia|]. cbn [fst]. rewrite vlen_cons. lia.
Qed.
Lemma try_resize_does c v n x : fits c v -> does (bigint_limbs c) (try_resize_n c v n x) (fits2 c).
Proof.
  intros F. pose proof (limbs_pos c). unfold try_resize_n. pose proof (vlen_nonneg v). dstep; [lia|].
  unfold try_resize, fits2. destruct (bigint_limbs c <? n) eqn:E; cbn [snd]; [exact F|].
  apply Z.ltb_ge in E. unfold fits. rewrite vlen_app, vlen_repeat.
  unfold vlen. rewrite firstn_length. lia.
Qed.
Lemma large_add_from_does c x y start : fits c x -> fits c y ->
  does (3 * bigint_limbs c) (large_add_from_n c x y start) (fits2 c).
Proof.
  intros FX FY. pose proof (limbs_pos c). unfold large_add_from_n.
  apply does_seq with (bigint_limbs c) (fits2 c).
  { dstep; [apply try_resize_does, FX|]. dstep; [lia|exact FX]. }
  intros [ok x2] F2. unfold fits2 in F2. cbn [snd] in F2.
  dstep; [dstep; [lia|exact F2]|]. 
  eapply does_seq; [apply add_loop_does|]. intros [r cr] E. cbn [fst] in E.
  pose proof (vlen_split (Z.to_nat start) x2) as V. unfold fits in *.
  assert (G : fits c (firstn (Z.to_nat start) x2 ++ r)) by (unfold fits; rewrite vlen_app; lia).
  destruct cr.
  - eapply does_weaken; [apply small_add_from_does, G|lia|auto].
  - dstep; [lia|exact G].
Qed.
Lemma try_extend_does c v : fits c v -> does (bigint_limbs c) (try_extend_n c [] v) (fits2 c).
Proof.
  intros F. unfold try_extend_n. pose proof (vlen_nonneg v). unfold fits in F. dstep; [lia|].
  unfold try_extend, fits2. match goal with |- context [if ?b then _ else _] => destruct b end; cbn [snd app]; [exact F|].
  unfold fits. pose proof (limbs_pos c). cbn. lia.
Qed.
Lemma normalize_does c v : fits c v -> does (bigint_limbs c) (normalize_n v) (fits c).
Proof.
  intros F. unfold normalize_n. pose proof (vlen_nonneg v). unfold fits in *. dstep; [lia|].
  pose proof (normalize_len v). lia.
Qed.
Lemma long_mul_loop_does c z : fits c z -> forall ys x index, fits c x ->
  does (vlen ys * (5 * bigint_limbs c + 1)) (long_mul_loop_n c x z ys index) (fits2 c).
Proof.
  intros FZ. pose proof (limbs_pos c). induction ys as [|y ys IH]; intros x index FX; cbn [long_mul_loop_n].
  - dstep; [cbn; lia|exact FX].
  - rewrite vlen_cons. pose proof (vlen_nonneg ys). assert (0 <= vlen ys * (5 * bigint_limbs c + 1)) by nia.
    replace ((vlen ys + 1) * (5 * bigint_limbs c + 1))
      with (vlen ys * (5 * bigint_limbs c + 1) + 5 * bigint_limbs c + 1) by lia.
    dstep. dstep.
    + eapply does_seq; [apply try_extend_does, FZ|]. intros [ok1 zi] F1. dstep; [dstep; [lia|exact FX]|].
      eapply does_seq; [apply small_mul_does, F1|]. intros [ok2 zi2] F2. dstep; [dstep; [lia|exact FX]|].
      eapply does_seq; [apply large_add_from_does; [exact FX|exact F2]|]. intros [ok3 x3] F3.
      dstep; [dstep; [lia|exact F3]|].
      eapply does_weaken; [apply IH, F3|lia|auto].
    + eapply does_weaken; [apply IH, FX|lia|auto].
Qed.
Lemma large_mul_does c x y : fits c x ->
  does (3 * bigint_limbs c + vlen y * (5 * bigint_limbs c + 1)) (large_mul_n c x y) (fits2 c).
Proof.
  intros FX. pose proof (limbs_pos c). pose proof (vlen_nonneg y).
  assert (0 <= vlen y * (5 * bigint_limbs c + 1)) by nia.
  assert (L : does (3 * bigint_limbs c + vlen y * (5 * bigint_limbs c + 1)) (long_mul_n c x y) (fits2 c)).
  { unfold long_mul_n. eapply does_seq; [apply try_extend_does, FX|]. intros [ok z] FZ. dstep.
    unfold fits2 in FZ. cbn [snd] in FZ. destruct y as [|y0 ys].
    - eapply does_seq; [apply normalize_does, FX|]. intros w FW. dstep; [lia|exact FW].
    - rewrite vlen_cons in *. pose proof (vlen_nonneg ys).
      assert (0 <= vlen ys * (5 * bigint_limbs c + 1)) by nia.
      eapply does_seq; [apply small_mul_does, FX|]. intros [ok2 x2] F2. dstep; [dstep; [lia|exact F2]|].
      eapply does_seq; [apply long_mul_loop_does; [exact FZ|exact F2]|]. intros [ok3 x3] F3.
      dstep; [dstep; [lia|exact F3]|].
      eapply does_seq; [apply normalize_does, F3|]. intros w FW. dstep; [lia|exact FW]. }
  unfold large_mul_n. destruct y as [|y0 [|y1 ys]]; [exact L| |exact L].
  eapply does_weaken; [apply small_mul_does, FX|lia|auto].
Qed.
Lemma hi64_does c v : fits c v -> does (bigint_limbs c) (hi64_n c v) (fun _ => True).
Proof.
  intros F. pose proof (limbs_pos c). pose proof (vlen_nonneg v). unfold fits in F. unfold hi64_n, nonzero_n.
  repeat dstep; try lia; try exact I; try (apply does_lift; [lia|trivial]);
  (apply does_seq with (vlen v) (fun _ => True); [dstep; [lia|exact I]|]; intros; dstep; [lia|exact I]).
Qed.
Lemma compare_loop_does : forall x y, does (vlen x) (compare_loop_n x y) (fun _ => True).
Proof.
  induction x as [|a x IH]; intros y; cbn [compare_loop_n]; [dstep; [cbn; lia|exact I]|].
  pose proof (vlen_nonneg x). rewrite vlen_cons. dstep; [dstep; [lia|exact I]|].
  dstep. replace (vlen x + 1 - 1) with (vlen x) by lia.
  dstep; [dstep; [lia|exact I]|]. dstep; [dstep; [lia|exact I]|]. apply IH.
Qed.
Lemma big_compare_does c x y : fits c x -> does (bigint_limbs c) (big_compare_n x y) (fun _ => True).
Proof.
  intros F. pose proof (limbs_pos c). unfold big_compare_n. dstep; [dstep; [lia|exact I]|].
  dstep; [dstep; [lia|exact I]|]. eapply does_weaken; [apply compare_loop_does| |auto].
  unfold fits, vlen in *. rewrite rev_length. exact F.
Qed.
Lemma shl_loop_does c n : forall l prev,
  does (vlen l) (shl_loop_n c n l prev) (fun r => vlen (fst r) = vlen l).
Proof.
  induction l as [|x l IH]; intros prev; cbn [shl_loop_n]; [dstep; [cbn; lia|reflexivity]|].
  rewrite vlen_cons. pose proof (vlen_nonneg l).
  eapply does_seq with (n0 := vlen l + 1); [dstep; replace (vlen l + 1 - 1) with (vlen l) by lia; apply IH|].
  intros [r cr] E. cbn [fst] in *. dstep; [lia|]. cbn [fst]. rewrite vlen_cons. lia.
Qed.
Lemma big_pow2_does c v n : fits c v -> 0 <= n -> does (2 * bigint_limbs c) (big_pow2_n c v n) (fits2 c).
Proof.
  intros F HN. pose proof (limbs_pos c). unfold big_pow2_n.
  apply does_seq with (bigint_limbs c) (fits2 c).
  { dstep; [|dstep; [lia|exact F]]. unfold shl_bits_n. dstep; [dstep; lia|].
    eapply does_seq; [apply shl_loop_does|]. intros [r prev] E. cbn [fst] in E. unfold fits in F.
    assert (G : fits c r) by (unfold fits; lia).
    dstep; (dstep; [lia|]); [apply try_push_fits, G|exact G]. }
  intros [ok w] FW. unfold fits2 in FW. cbn [snd] in FW. dstep; [dstep; [lia|exact FW]|].
  dstep; [|dstep; [lia|exact FW]]. unfold shl_limbs_n.
  assert (0 <= n / limb_bits c). { apply Z.div_pos; [lia|]. unfold limb_bits. destruct (limb64 c); lia. }
  pose proof (vlen_nonneg w).
  dstep; [dstep; [lia|exact FW]|]. apply Z.ltb_ge in Heqb1. destruct w as [|w0 w]; [dstep; [lia|exact FW]|].
  dstep; [lia|]. unfold fits2, fits. cbn [snd]. rewrite vlen_app, vlen_repeat. lia.
Qed.

(** ** Powers *)
Definition pow5_round (c : cfg) : Z :=
  1 + 3 * bigint_limbs c + vlen (large_power_of_5 c) * (5 * bigint_limbs c + 1).

Lemma pow5_round_pos c : 0 <= pow5_round c.
Proof. unfold pow5_round. pose proof (limbs_pos c). pose proof (vlen_nonneg (large_power_of_5 c)). nia. Qed.

Lemma pow5_large_does c : forall fuel v exp, fits c v -> 0 <= exp ->
  does (exp / 135 * pow5_round c) (pow5_large_loop_n fuel c v exp)
    (fun r => fits c (snd (fst r)) /\ 0 <= snd r).
Proof.
  pose proof (pow5_round_pos c) as PP. pose proof (limbs_pos c) as LP.
  induction fuel as [|fuel IH]; intros v exp F HE; cbn [pow5_large_loop_n].
  - dstep. assert (0 <= exp / 135) by (apply Z.div_pos; lia). nia.
  - assert (0 <= exp / 135) by (apply Z.div_pos; lia).
    dstep; [|dstep; [nia|split; [exact F|exact HE]]]. apply Z.leb_le in Heqb.
    assert (E : exp / 135 = (exp - 135) / 135 + 1).
    { replace exp with (exp - 135 + 1 * 135) at 1 by lia. apply Z.div_add. lia. }
    assert (0 <= (exp - 135) / 135) by (apply Z.div_pos; lia).
    assert (X : exp / 135 * pow5_round c = (exp - 135) / 135 * pow5_round c + pow5_round c) by (rewrite E; lia).
    rewrite X. assert (0 <= (exp - 135) / 135 * pow5_round c) by nia.
    dstep. eapply does_seq; [apply large_mul_does, F|]. intros [ok w] FW.
    match goal with |- does ?n _ _ => replace n with ((exp - 135) / 135 * pow5_round c) by (unfold pow5_round; lia) end.
    dstep; [dstep; [lia|split; [exact FW|exact HE]]|].
    apply IH; [exact FW|lia].
Qed.
Lemma pow5_small_does c : forall fuel v exp, fits c v ->
  does (Z.of_nat fuel * (bigint_limbs c + 1)) (pow5_small_loop_n fuel c v exp) (fun r => fits c (snd (fst r))).
Proof.
  pose proof (limbs_pos c) as LP.
  induction fuel as [|fuel IH]; intros v exp F; cbn [pow5_small_loop_n].
  - dstep. lia.
  - assert (0 <= Z.of_nat fuel * (bigint_limbs c + 1)) by nia.
    replace (Z.of_nat (S fuel) * (bigint_limbs c + 1)) with (Z.of_nat fuel * (bigint_limbs c + 1) + bigint_limbs c + 1) by lia.
    dstep; [|dstep; [lia|exact F]].
    dstep. eapply does_seq; [apply small_mul_does, F|]. intros [ok w] FW.
    match goal with |- does ?n _ _ => replace n with (Z.of_nat fuel * (bigint_limbs c + 1)) by lia end.
    dstep; [dstep; [lia|exact FW]|]. apply IH, FW.
Qed.
Lemma big_pow5_does c v exp : fits c v -> 0 <= exp ->
  does (exp / 135 * pow5_round c + 13 * bigint_limbs c + 12) (big_pow5_n c v exp) (fits2 c).
Proof.
  intros F HE. pose proof (pow5_round_pos c) as PP. pose proof (limbs_pos c) as LP.
  assert (0 <= exp / 135) by (apply Z.div_pos; lia). assert (0 <= exp / 135 * pow5_round c) by nia.
  unfold big_pow5_n. eapply does_seq; [apply pow5_large_does; [exact F|exact HE]|].
  intros [[ok w] e] [FW HW]. cbn [fst snd] in *. dstep; [dstep; [lia|exact FW]|].
  eapply does_seq; [apply (pow5_small_does c 12 w e), FW|].
  intros [[ok2 w2] e2] FW2. cbn [fst snd] in *. dstep; [dstep; [lia|exact FW2]|].
  dstep; [|dstep; [lia|exact FW2]]. dstep.
  eapply does_weaken; [apply small_mul_does, FW2|lia|auto].
Qed.
Lemma big_pow10_does c v exp : fits c v -> 0 <= exp ->
  does (exp / 135 * pow5_round c + 15 * bigint_limbs c + 12) (big_pow10_n c v exp) (fits2 c).
Proof.
  intros F HE. pose proof (pow5_round_pos c) as PP. pose proof (limbs_pos c) as LP.
  assert (0 <= exp / 135) by (apply Z.div_pos; lia). assert (0 <= exp / 135 * pow5_round c) by nia.
  unfold big_pow10_n. eapply does_seq; [apply big_pow5_does; [exact F|exact HE]|].
  intros [ok w] FW. dstep; [dstep; [lia|exact FW]|].
  eapply does_weaken; [apply big_pow2_does; [exact FW|exact HE]|lia|auto].
Qed.
Lemma bigint_of_u64_does c x : does 2 (bigint_of_u64_n c x) (fits c).
Proof.
  pose proof (limbs_pos c). unfold bigint_of_u64_n.
  assert (P : forall v x w, push_unchecked c v x = Ok w -> vlen w = vlen v + 1).
  { intros v y w. unfold push_unchecked. destruct (_ <? _); [|discriminate]. intros E. injection E as <-. apply vlen_app. }
  apply does_seq with 0 (fun v => vlen v <= 2).
  - dstep.
    + apply does_lift; [lia|]. intros w E. apply P in E. cbn in E. lia.
    + dstep. apply does_lift; [lia|]. intros w E. apply P in E. apply P in H0. cbn in H0. lia.
  - intros v V. unfold normalize_n. pose proof (vlen_nonneg v). dstep; [lia|]. unfold fits. pose proof (normalize_len v). lia.
Qed.

(** ** The decimal digits *)
Lemma int_cmp_len_pos u : 1 <= int_cmp_len u.
Proof. destruct u; vm_compute; discriminate. Qed.
Lemma skip_zeros_words_takes c u : forall fuel p,
  takes (remaining p) (skip_zeros_words_n fuel c u p) remaining.
Proof.
  pose proof (int_cmp_len_pos u). induction fuel as [|fuel IH]; intros p; cbn [skip_zeros_words_n]; [apply takes_ub|].
  step; [|step; lia]. step. step; [|step; lia]. step. step.
  eapply takes_weaken; [apply IH|]. intros r _. apply advance_len in H1. lia.
Qed.
Lemma skip_zeros_chars_takes : forall p, takes (remaining p) (skip_zeros_chars_n p) remaining.
Proof.
  induction p as [|x p IH]; cbn [skip_zeros_chars_n]; [step; cbn; lia|].
  step; [|step; lia]. step. rewrite remaining_cons. replace (remaining p + 1 - 1) with (remaining p) by lia. exact IH.
Qed.
Lemma skip_zeros_takes c u p : takes (remaining p) (skip_zeros_n c u p) remaining.
Proof.
  unfold skip_zeros_n. step; [apply skip_zeros_chars_takes|].
  eapply takes_seq; [apply skip_zeros_words_takes|]. intros q _.
  replace (remaining p - remaining p + remaining q) with (remaining q) by lia. apply skip_zeros_chars_takes.
Qed.
Lemma is_truncated_words_takes c u : forall fuel p,
  takes (remaining p) (is_truncated_words_n fuel c u p) (fun r => remaining (snd r)).
Proof.
  pose proof (int_cmp_len_pos u). induction fuel as [|fuel IH]; intros p; cbn [is_truncated_words_n]; [apply takes_ub|].
  step; [|step; cbn; lia]. step. step; [|step; cbn; lia]. step. step.
  eapply takes_weaken; [apply IH|]. intros r _. apply advance_len in H1. cbv beta. lia.
Qed.
Lemma is_truncated_takes c u p : takes (remaining p) (is_truncated_n c u p) (fun _ => 0).
Proof.
  assert (G : forall p, takes (remaining p) (charge (vlen p) (existsb (fun ch => negb (ch =? 48)) p)) (fun _ => 0)).
  { intros q. step; [apply vlen_nonneg|]. unfold vlen, remaining. lia. }
  unfold is_truncated_n. step; [apply G|].
  eapply takes_seq; [apply is_truncated_words_takes|]. intros [tr q] _. cbn [snd].
  replace (remaining p - remaining p + remaining q) with (remaining q) by lia.
  pose proof (remaining_nonneg q). step; [step; lia|apply G].
Qed.

(** At most [n] rounds, [phi] of the value being left, and the value has the
    property [Q]. *)
Definition leaves {A} (n : Z) (m : run A) (phi : A -> Z) (Q : A -> Prop) : Prop :=
  takes n m phi /\ forall x, erase m = Ok x -> Q x.
Lemma leaves_seq {A B} n n0 (m : run A) (k : A -> run B) phi psi Q R :
  leaves n0 m phi Q -> (forall x, Q x -> leaves (n - n0 + phi x) (k x) psi R) -> leaves n (seq m k) psi R.
Proof.
  intros [T F] H. split.
  - eapply takes_seq; [exact T|]. intros x E. apply H, F, E.
  - intros y E. rewrite erase_seq in E. destruct (erase m) as [x|] eqn:EM; [|discriminate]. cbn in E.
    exact (proj2 (H x (F x eq_refl)) y E).
Qed.
Lemma leaves_ok {A} n (x : A) phi (Q : A -> Prop) : phi x <= n -> Q x -> leaves n (lift (Ok x)) phi Q.
Proof. intros H F. split; [apply takes_ok, H|]. rewrite erase_lift. intros y E. injection E as <-. exact F. Qed.
Lemma leaves_ub {A} n phi (Q : A -> Prop) : leaves n (lift UB) phi Q.
Proof. split; [apply takes_ub|]. discriminate. Qed.
Lemma leaves_tick {A} n (m : run A) phi Q : leaves (n - 1) m phi Q -> leaves n (tick m) phi Q.
Proof. intros [T F]. split; [apply takes_tick, T|]. rewrite erase_tick. exact F. Qed.
Lemma leaves_seq_lift {A B} n (m : res A) (k : A -> run B) phi R :
  (forall x, m = Ok x -> leaves n (k x) phi R) -> leaves n (seq (lift m) k) phi R.
Proof.
  intros H. split.
  - apply takes_seq_lift. intros x E. apply H, E.
  - intros y E. rewrite erase_seq, erase_lift in E. destruct m as [x|]; [|discriminate]. exact (proj2 (H x eq_refl) y E).
Qed.
Lemma leaves_weaken {A} n n0 (m : run A) phi psi (Q R : A -> Prop) :
  leaves n0 m phi Q -> (forall x, Q x -> psi x + n0 <= phi x + n /\ R x) -> leaves n m psi R.
Proof.
  intros [T F] W. split; [eapply takes_weaken; [exact T|]|]; intros x E; apply W, F, E.
Qed.

Lemma eight_loop_leaves c u step md : forall fuel p value counter digits, counter <= step -> digits <= md ->
  leaves (remaining p) (eight_loop_n fuel c u step md p value counter digits)
    (fun '(q, _, _, _) => remaining q)
    (fun '(q, _, k, d) => k - counter = remaining p - remaining q /\ d - digits = remaining p - remaining q /\
                          counter <= k <= step /\ digits <= d <= md).
Proof.
  induction fuel as [|fuel IH]; intros p value counter digits HC HD; cbn [eight_loop_n]; [apply leaves_ub|].
  destruct ((8 <=? remaining p) && (8 <=? step - counter) && (8 <=? md - digits)) eqn:E.
  - apply andb_prop in E. destruct E as [E E3]. apply andb_prop in E. destruct E as [E1 E2].
    apply Z.leb_le in E1, E2, E3. apply leaves_seq_lift. intros v _. apply leaves_seq_lift. intros p2 AP.
    apply advance_len in AP. apply leaves_tick.
    eapply leaves_weaken; [apply IH; lia|]. intros [[[q w] k] d] (A1 & A2 & A3 & A4). lia.
  - apply leaves_ok; [lia|]. lia.
Qed.
Lemma one_loop_leaves c u step md : forall p value counter digits, counter <= step -> digits <= md ->
  leaves (remaining p) (one_loop_n c u step md p value counter digits)
    (fun '(q, _, _, _) => remaining q)
    (fun '(q, _, k, d) => k - counter = remaining p - remaining q /\ d - digits = remaining p - remaining q /\
                          counter <= k <= step /\ digits <= d <= md /\ (q = [] \/ k = step \/ d = md)).
Proof.
  induction p as [|x p IH]; intros value counter digits HC HD; cbn [one_loop_n].
  - apply leaves_ok; [lia|]. repeat split; try lia. left. reflexivity.
  - destruct ((counter <? step) && (digits <? md)) eqn:E.
    + apply andb_prop in E. destruct E as [E1 E2]. apply Z.ltb_lt in E1, E2.
      apply leaves_seq_lift. intros v _. apply leaves_tick. rewrite remaining_cons.
      eapply leaves_weaken; [apply IH; lia|]. intros [[[q w] k] d] (A1 & A2 & A3 & A4 & A5). repeat split; try lia; tauto.
    + apply andb_false_iff in E. rewrite !Z.ltb_ge in E. apply leaves_ok; [lia|]. repeat split; try lia.
Qed.
Lemma add_native_does c big pw v : fits c big -> does (2 * bigint_limbs c) (add_native_n c big pw v) (fits c).
Proof.
  intros F. unfold add_native_n. eapply does_seq; [apply small_mul_does, F|]. intros [ok w] FW.
  eapply does_seq; [apply small_add_from_does, FW|]. intros [ok2 w2] FW2. dstep; [lia|exact FW2].
Qed.

Definition more_len (more : option (list Z)) : Z := match more with Some f => remaining f | None => 0 end.

Lemma mantissa_loop_leaves c u step md more : 0 < step -> forall fuel p big d, fits c big -> 0 <= d <= md ->
  let K := 1 + 2 * bigint_limbs c in
  leaves (remaining p + more_len more + K * ((md - d) / step + 1) + 2 * bigint_limbs c)
    (mantissa_loop_n fuel c u step md more p big d)
    (fun '(dn, _, d') => if dn then 0 else more_len more + K * ((md - d') / step) + 2 * bigint_limbs c)
    (fun '(dn, b, d') => fits c b /\ d <= d' <= md + 1 /\ (dn = false -> d' <= md)).
Proof.
  intros HS. pose proof (limbs_pos c) as LP.
  assert (NM : 0 <= more_len more) by (unfold more_len; destruct more; [apply remaining_nonneg|lia]).
  induction fuel as [|fuel IH]; intros p big d F HD K; destruct p as [|ch p0]; cbn [mantissa_loop_n].
  - apply leaves_ok; [unfold K; rewrite remaining_nil; lia|]. repeat split; try lia. exact F.
  - apply leaves_ub.
  - apply leaves_ok; [unfold K; rewrite remaining_nil; lia|]. repeat split; try lia. exact F.
  - set (p := ch :: p0) in *. apply leaves_tick.
    eapply leaves_seq; [apply eight_loop_leaves; lia|]. intros [[[p1 v1] k1] d1] (A1 & A2 & A3 & A4).
    eapply leaves_seq; [apply one_loop_leaves; lia|]. intros [[[p2 v2] k2] d2] (B1 & B2 & B3 & B4 & B5).
    apply leaves_seq_lift. intros pw _.
    apply leaves_seq with (2 * bigint_limbs c) (fun _ => 0) (fits c); [exact (add_native_does c big _ _ F)|]. intros big2 F2.
    pose proof (remaining_nonneg p2) as N2. pose proof (remaining_nonneg p) as N0.
    assert (Q0 : 0 <= (md - d) / step) by (apply Z.div_pos; lia). assert (K0 : 0 <= K) by (unfold K; lia).
    assert (KQ : 0 <= K * ((md - d) / step)) by (apply Z.mul_nonneg_nonneg; assumption).
    replace (K * ((md - d) / step + 1)) with (K * ((md - d) / step) + K) by lia.
    destruct (d2 =? md) eqn:ED.
    + apply leaves_seq with (remaining p2) (fun _ => 0) (fun _ => True); [split; [apply is_truncated_takes|trivial]|]. intros t1 _.
      apply leaves_seq with (more_len more) (fun _ => 0) (fun _ => True).
      { split; [|trivial]. unfold more_len. destruct more; [apply is_truncated_takes|step; lia]. }
      intros t2 _. destruct (t1 || t2).
      * unfold round_up_bigint_n.
        apply leaves_seq with (2 * bigint_limbs c) (fun _ => 0) (fun r => fits c (fst r) /\ snd r = d2 + 1).
        { apply does_seq with (2 * bigint_limbs c) (fits c); [exact (add_native_does c big2 _ _ F2)|].
          intros w FW. dstep; [lia|]. split; [exact FW|reflexivity]. }
        intros [w dw] [FW EW]. cbn [fst snd] in *. apply leaves_ok; [unfold K; lia|].
        split; [exact FW|]. split; [lia|discriminate].
      * apply leaves_ok; [unfold K; lia|]. split; [exact F2|]. split; [lia|discriminate].
    + apply Z.eqb_neq in ED. specialize (IH p2 big2 d2 F2 ltac:(lia)). cbv zeta in IH. fold K in IH.
      destruct B5 as [B5|[B5|B5]]; [|eapply leaves_weaken; [exact IH|]|lia].
      * subst p2. destruct fuel as [|fuel2].
        -- cbn [mantissa_loop_n]. apply leaves_ok; [|repeat split; try lia; exact F2].
           assert ((md - d2) / step <= (md - d) / step) by (apply Z.div_le_mono; lia).
           rewrite remaining_nil.
           assert (K * ((md - d2) / step) <= K * ((md - d) / step)) by (apply Z.mul_le_mono_nonneg_l; assumption).
           assert (KE : K = 1 + 2 * bigint_limbs c) by reflexivity. clearbody K. lia.
        -- cbn [mantissa_loop_n]. apply leaves_ok; [|repeat split; try lia; exact F2].
           assert ((md - d2) / step <= (md - d) / step) by (apply Z.div_le_mono; lia).
           rewrite remaining_nil.
           assert (K * ((md - d2) / step) <= K * ((md - d) / step)) by (apply Z.mul_le_mono_nonneg_l; assumption).
           assert (KE : K = 1 + 2 * bigint_limbs c) by reflexivity. clearbody K. lia.
      * intros [[dn b] d3] (C1 & C2 & C3). split; [|repeat split; try lia; auto].
        assert (E : (md - d) / step = (md - d2) / step + 1).
        { replace (md - d) with (md - d2 + 1 * step) by lia. apply Z.div_add. lia. }
        rewrite E. unfold K. lia.
Qed.

Definition steps (c : cfg) : Z := if limb64 c then 19 else 9.
Definition mantissa_rounds (c : cfg) (md : Z) : Z :=
  (1 + 2 * bigint_limbs c) * (md / steps c + 2) + 2 * bigint_limbs c.

Lemma parse_mantissa_does c u num md : 0 <= md ->
  does (spans_len num + mantissa_rounds c md) (parse_mantissa_n c u num md)
    (fun r => fits c (fst r) /\ 0 <= snd r <= md + 1).
Proof.
  intros MD. pose proof (limbs_pos c) as LP.
  assert (HS : 0 < steps c) by (unfold steps; destruct (limb64 c); lia).
  unfold parse_mantissa_n. fold (steps c). unfold mantissa_rounds, spans_len.
  set (K := 1 + 2 * bigint_limbs c). assert (KE : K = 1 + 2 * bigint_limbs c) by reflexivity.
  assert (Q0 : forall d, d <= md -> 0 <= (md - d) / steps c) by (intros; apply Z.div_pos; lia).
  assert (K0 : forall d, d <= md -> 0 <= K * ((md - d) / steps c)) by (intros; apply Z.mul_nonneg_nonneg; [lia|auto]).
  pose proof (remaining_nonneg (span_list (pn_integer num))) as NI.
  pose proof (remaining_nonneg (span_list (pn_fraction num))) as NF.
  assert (KM : K * (md / steps c + 2) = K * ((md - 0) / steps c) + K + K) by (rewrite Z.sub_0_r; lia). rewrite KM. clear KM.
  change (leaves (remaining (span_list (pn_integer num)) + remaining (span_list (pn_fraction num)) +
      (K * ((md - 0) / steps c) + K + K + 2 * bigint_limbs c))
    (parse_mantissa_n c u num md) (fun _ => 0) (fun r => fits c (fst r) /\ 0 <= snd r <= md + 1)).
  unfold parse_mantissa_n. fold (steps c).
  eapply leaves_seq with (Q := fun _ => True); [split; [apply skip_zeros_takes|trivial]|]. intros p _.
  eapply leaves_seq.
  { apply (mantissa_loop_leaves c u (steps c) md (pn_fraction num) HS (S (length p)) p [] 0); [unfold fits; cbn; lia|lia]. }
  intros [[dn big] d] (FB & HD & DN). cbv zeta. fold K. pose proof (K0 0 MD) as K00.
  assert (ML : more_len (pn_fraction num) = remaining (span_list (pn_fraction num)))
    by (unfold more_len; destruct (pn_fraction num); reflexivity).
  destruct dn; [apply leaves_ok; [cbv beta; lia|cbn [fst snd]; split; [exact FB|lia]]|].
  specialize (DN eq_refl). pose proof (K0 d DN) as K0d.
  destruct (pn_fraction num) as [f|]; [|apply leaves_ok; [cbv beta; lia|cbn [fst snd]; split; [exact FB|lia]]].
  cbn [span_list more_len] in *.
  eapply leaves_seq with (n0 := remaining f) (phi := remaining) (Q := fun _ => True).
  { split; [|trivial]. step; [apply skip_zeros_takes|]. step. lia. }
  intros q _. eapply leaves_seq.
  { apply (mantissa_loop_leaves c u (steps c) md None HS (S (length q)) q big d FB). lia. }
  intros [[dn2 big2] d2] (FB2 & HD2 & DN2). cbv zeta. fold K.
  apply leaves_ok; [|cbn [fst snd]; split; [exact FB2|lia]].
  cbn [more_len]. destruct dn2; [lia|]. specialize (DN2 eq_refl). pose proof (K0 d2 DN2). lia.
Qed.

Lemma sci_loop_does by_ step0 : 0 <= step0 -> forall fuel m e,
  does (Z.of_nat fuel) (sci_loop_n fuel by_ step0 m e) (fun r => e <= snd r <= e + Z.of_nat fuel * step0).
Proof.
  intros HS. induction fuel as [|fuel IH]; intros m e; cbn [sci_loop_n]; [dstep; lia|].
  dstep; [|dstep; [lia|cbn [snd]; nia]]. dstep. dstep.
  unfold chk in H. destruct (_ && _); [|discriminate]. assert (x = e + step0) by congruence. subst x.
  eapply does_weaken; [apply IH|lia|]. intros [m2 e2] E. cbn [snd] in *. nia.
Qed.
Lemma scientific_exponent_does m e : does 30 (scientific_exponent_n m e) (fun r => e <= r <= e + 70).
Proof.
  unfold scientific_exponent_n.
  eapply does_seq; [apply (sci_loop_does 10000 4 ltac:(lia) 10)|]. intros [m1 e1] E1. cbn [snd] in E1.
  eapply does_seq; [apply (sci_loop_does 100 2 ltac:(lia) 10)|]. intros [m2 e2] E2. cbn [snd] in E2.
  eapply does_seq; [apply (sci_loop_does 10 1 ltac:(lia) 10)|]. intros [m3 e3] E3. cbn [snd] in E3.
  dstep; lia.
Qed.

Lemma positive_digit_comp_does c t big e : fits c big -> 0 <= e <= 500 ->
  does (3 * pow5_round c + 16 * bigint_limbs c + 12) (positive_digit_comp_n c t big e) (fun _ => True).
Proof.
  intros F HE. pose proof (limbs_pos c) as LP. pose proof (pow5_round_pos c) as PP. unfold positive_digit_comp_n.
  assert (U : u32 e = e) by (unfold u32; apply Z.mod_small; lia). rewrite U.
  eapply does_seq; [apply big_pow10_does; [exact F|lia]|]. intros [ok w] FW. dstep.
  assert (D3 : e / 135 < 4) by (apply Z.div_lt_upper_bound; lia).
  assert (D0 : 0 <= e / 135) by (apply Z.div_pos; lia).
  assert (e / 135 * pow5_round c <= 3 * pow5_round c) by (apply Z.mul_le_mono_nonneg_r; lia).
  eapply does_seq; [apply hi64_does, FW|]. intros [m tr] _. dstep. dstep. apply does_lift; [lia|trivial].
Qed.
Lemma negative_digit_comp_does c t big am e : fits c big -> - 1200 <= e < 0 ->
  does (8 * pow5_round c + 16 * bigint_limbs c + 14) (negative_digit_comp_n c t big am e) (fun _ => True).
Proof.
  intros F HE. pose proof (limbs_pos c) as LP. pose proof (pow5_round_pos c) as PP. unfold negative_digit_comp_n.
  dstep. dstep. eapply does_seq; [apply bigint_of_u64_does|]. intros th FT. dstep. dstep.
  assert (x2 = - e). { unfold chk in H2. destruct (_ && _); congruence. }
  subst x2. assert (U : u32 (- e) = - e) by (unfold u32; apply Z.mod_small; lia). rewrite U.
  apply does_seq with (8 * pow5_round c + 13 * bigint_limbs c + 12) (fits2 c).
  { assert (D3 : - e / 135 < 9) by (apply Z.div_lt_upper_bound; lia).
    assert (D0 : 0 <= - e / 135) by (apply Z.div_pos; lia).
    assert (- e / 135 * pow5_round c <= 8 * pow5_round c) by (apply Z.mul_le_mono_nonneg_r; lia).
    dstep; [|dstep; [lia|exact FT]]. eapply does_weaken; [apply big_pow5_does; [exact FT|lia]|lia|auto]. }
  intros [ok th2] F2. unfold fits2 in F2. cbn [snd] in F2. dstep.
  apply does_seq with (2 * bigint_limbs c) (fun r => fits c (fst r)).
  { dstep.
    - eapply does_seq; [apply big_pow2_does; [exact F2|unfold u32; apply Z.mod_pos_bound; lia]|]. intros [ok2 th3] F3. dstep. dstep; [lia|exact F].
    - dstep.
      + dstep. eapply does_seq; [apply big_pow2_does; [exact F|unfold u32; apply Z.mod_pos_bound; lia]|]. intros [ok2 re] F3. dstep. dstep; [lia|exact F3].
      + dstep; [lia|exact F]. }
  intros [re th4] FR. cbn [fst] in FR.
  eapply does_seq; [apply big_compare_does, FR|]. intros ord _. apply does_lift; [lia|trivial].
Qed.

Definition digit_comp_rounds (c : cfg) : Z :=
  30 + mantissa_rounds c 769 + 8 * pow5_round c + 16 * bigint_limbs c + 14.

Lemma digit_comp_does c u t num am : - 400 <= to_signed 32 (pn_exponent num) <= 400 ->
  does (spans_len num + digit_comp_rounds c) (digit_comp_n c u t num am) (fun _ => True).
Proof.
  intros HE. pose proof (limbs_pos c) as LP. pose proof (pow5_round_pos c) as PP. unfold digit_comp_n, digit_comp_rounds. dstep.
  eapply does_seq; [apply scientific_exponent_does|]. intros se ESE.
  assert (MD : 0 <= max_digits t <= 769) by (destruct t; vm_compute; split; discriminate).
  assert (MM : mantissa_rounds c (max_digits t) <= mantissa_rounds c 769).
  { unfold mantissa_rounds. assert (max_digits t / steps c <= 769 / steps c).
    { apply Z.div_le_mono; [unfold steps; destruct (limb64 c)|]; lia. } nia. }
  eapply does_seq; [apply parse_mantissa_does; lia|]. intros [big d] [FB HD]. cbn [fst snd] in *.
  dstep. dstep. unfold chk in H0, H1. destruct (_ && _) in H0; [|discriminate]. destruct (_ && _) in H1; [|discriminate].
  assert (x0 = se + 1) by congruence. assert (x1 = x0 - d) by congruence.
  dstep.
  - apply Z.leb_le in Heqb. eapply does_weaken; [apply positive_digit_comp_does; [exact FB|lia]|lia|auto].
  - apply Z.leb_gt in Heqb. eapply does_weaken; [apply negative_digit_comp_does; [exact FB|lia]|lia|auto].
Qed.

(** The table of powers of five is only defined where the slow path is cheap. *)
Lemma to_signed_shift q k j : - 2 ^ 29 <= k <= 2 ^ 29 -> - 2 ^ 29 <= j <= 2 ^ 29 -> to_signed 32 (q + k) = j -> to_signed 32 q = j - k.
Proof.
  change (2 ^ 29) with 536870912. intros HK HJ E. unfold to_signed in *. change (2 ^ 32) with 4294967296 in *.
  change (2 ^ (32 - 1)) with 2147483648 in *.
  pose proof (Z.div_mod (q + k) 4294967296 ltac:(lia)) as D1. pose proof (Z.div_mod q 4294967296 ltac:(lia)) as D2.
  pose proof (Z.mod_pos_bound (q + k) 4294967296 ltac:(lia)) as M1. pose proof (Z.mod_pos_bound q 4294967296 ltac:(lia)) as M2.
  revert E. cbv zeta. destruct (Z.ltb_spec ((q + k) mod 4294967296) 2147483648), (Z.ltb_spec (q mod 4294967296) 2147483648); lia.
Qed.
Lemma product_range c b q w r : compute_product_approximation c b q w = Ok r -> - 342 <= to_signed 32 q <= 308.
Proof.
  unfold compute_product_approximation. set (s := to_signed 32 (q - smallest_power_of_five)).
  unfold chk. destruct (_ && _); [|discriminate]. cbn [bind]. unfold nth_res at 1.
  destruct (Z.ltb_spec (2 * s) 0); [discriminate|].
  destruct (nth_error power_of_five_128 (Z.to_nat (2 * s))) eqn:EN; [|discriminate]. intros _.
  assert (LN : (Z.to_nat (2 * s) < length power_of_five_128)%nat) by (apply nth_error_Some; congruence).
  assert (HL : Z.of_nat (length power_of_five_128) = 1302) by (vm_compute; reflexivity).
  assert (E : to_signed 32 q = s - - smallest_power_of_five).
  { apply to_signed_shift; [vm_compute; split; discriminate|change (2 ^ 29) with 536870912; lia|reflexivity]. }
  rewrite E. change smallest_power_of_five with (-342). lia.
Qed.
Lemma compute_error_range c t q w a : compute_error c t q w = Ok a -> - 342 <= to_signed 32 q <= 308.
Proof.
  unfold compute_error. destruct (leading_zeroes c w) as [lz|]; [|discriminate]. cbn [bind].
  destruct (shl 64 w lz) as [w2|]; [|discriminate]. cbn [bind].
  destruct (compute_product_approximation c (mant_bits t + 3) q w2) eqn:E; [|discriminate].
  intros _. exact (product_range _ _ _ _ _ E).
Qed.
Lemma compute_float_range c t q w a : compute_float c t q w = Ok a -> am_power2 a < 0 -> - 342 <= to_signed 32 q <= 308.
Proof.
  unfold compute_float. destruct (_ || _); [intros E; injection E as <-; cbn; lia|].
  destruct (_ <? _); [intros E; injection E as <-; destruct t; cbn; lia|].
  destruct (leading_zeroes c w) as [lz|]; [|discriminate]. cbn [bind].
  destruct (shl 64 w lz) as [w2|]; [|discriminate]. cbn [bind].
  destruct (compute_product_approximation c (mant_bits t + 3) q w2) eqn:E; [|discriminate].
  intros _ _. exact (product_range _ _ _ _ _ E).
Qed.

Lemma pns_does c u t pns :
  does (spans_len pns + digit_comp_rounds c) (from_chars_advanced_pns_n c u t pns) (fun _ => True).
Proof.
  assert (P0 : 0 <= digit_comp_rounds c).
  { unfold digit_comp_rounds, mantissa_rounds. pose proof (limbs_pos c). pose proof (pow5_round_pos c).
    assert (0 <= 769 / steps c) by (unfold steps; destruct (limb64 c); vm_compute; discriminate). nia. }
  pose proof (spans_len_nonneg pns) as NS.
  unfold from_chars_advanced_pns_n. apply does_seq with 0 (fun _ => True).
  { dstep; [apply does_lift; [lia|trivial]|dstep; [lia|exact I]]. }
  intros [v|] _; [dstep; [lia|exact I]|]. dstep. rename x into am. rename H into EA.
  apply does_seq with 0 (fun a => am_power2 a < 0 -> - 342 <= to_signed 32 (pn_exponent pns) <= 308).
  { dstep.
    - dstep. dstep.
      + apply does_lift; [lia|]. intros a E _. exact (compute_error_range _ _ _ _ _ E).
      + dstep; [lia|]. exact (compute_float_range _ _ _ _ _ EA).
    - dstep; [lia|]. exact (compute_float_range _ _ _ _ _ EA). }
  intros am2 R. apply does_seq with (spans_len pns + digit_comp_rounds c) (fun _ => True).
  { dstep; [|dstep; [lia|exact I]]. apply Z.ltb_lt in Heqb. apply digit_comp_does. specialize (R Heqb). lia. }
  intros am3 _. dstep. dstep; [lia|exact I].
Qed.

Theorem from_chars_float_takes c u t p o :
  takes (6 * remaining p + digit_comp_rounds c) (from_chars_float_advanced_n c u t p o) (fun _ => 0).
Proof.
  assert (P0 : 0 <= digit_comp_rounds c).
  { unfold digit_comp_rounds, mantissa_rounds. pose proof (limbs_pos c). pose proof (pow5_round_pos c).
    assert (0 <= 769 / steps c) by (unfold steps; destruct (limb64 c); vm_compute; discriminate). nia. }
  unfold from_chars_float_advanced_n.
  match goal with |- takes _ (seq ?m _) _ => assert (T : takes (remaining p) m remaining) end.
  { step; [apply skip_ws_takes|]. step. lia. }
  eapply takes_seq; [exact T|]. intros q E. pose proof (takes_value _ _ _ _ T E) as L. clear T E.
  pose proof (remaining_nonneg q) as NQ.
  apply takes_weaken with (6 * remaining q + digit_comp_rounds c) (fun _ => 0); [|intros; lia].
  destruct q as [|ch q']; [step; lia|]. set (q := ch :: q') in *.
  assert (SP : forall bjf, takes (4 * remaining q + digit_comp_rounds c) (parse_number_slow_path_n c u t q o bjf) (fun _ => 0)).
  { intros bjf. unfold parse_number_slow_path_n. eapply takes_seq; [apply (parse_number_takes c u bjf q o true)|].
    intros pns _. eapply takes_weaken; [apply (proj1 (pns_does c u t pns))|]. intros. cbv beta. lia. }
  eapply takes_seq; [apply (parse_number_takes c u _ q o false)|]. intros pns _.
  pose proof (spans_len_nonneg pns) as NS.
  step.
  - step; [step; lia|]. eapply takes_weaken; [apply parse_infnan_takes|]. intros. cbv beta. lia.
  - step; [eapply takes_weaken; [apply SP|]; intros; cbv beta; lia|].
    step. step; [step; lia|]. step. step; [eapply takes_weaken; [apply SP|]; intros; cbv beta; lia|].
    step. step. lia.
Qed.

Lemma rounds_32 c : digit_comp_rounds c <= 77219.
Proof.
  unfold digit_comp_rounds, mantissa_rounds, pow5_round, bigint_limbs, limb_bits, large_power_of_5, steps.
  destruct (limb64 c); vm_compute; discriminate.
Qed.
Lemma rounds_64 c : limb64 c = true -> digit_comp_rounds c <= 20346.
Proof.
  intros H. unfold digit_comp_rounds, mantissa_rounds, pow5_round, bigint_limbs, limb_bits, large_power_of_5, steps.
  rewrite H. vm_compute. discriminate.
Qed.
