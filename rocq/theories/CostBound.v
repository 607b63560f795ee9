(** Bounds on the number of rounds counted in Cost.v.  [takes n m phi]: the
    computation [m] takes so few rounds that [n] covers them and [phi] of the
    value it returns. *)
From Verif Require Import Machine Config Tables Chars Format ParseNumber Bigint DecToBin DigitComp
  FromChars Ints Cost CostErase.
Open Scope Z_scope.

Definition takes {A} (n : Z) (m : run A) (phi : A -> Z) : Prop :=
  forall x k, outcome m = Ok (x, k) -> 0 <= k /\ k + phi x <= n.

Lemma takes_lift {A} n (m : res A) phi : (forall x, m = Ok x -> phi x <= n) -> takes n (lift m) phi.
Proof.
  intros H x k. unfold lift. cbn. destruct m as [y|]; [|discriminate].
  intros E. injection E as <- <-. specialize (H _ eq_refl). lia.
Qed.
Lemma takes_ok {A} n (x : A) phi : phi x <= n -> takes n (lift (Ok x)) phi.
Proof. intros H. apply takes_lift. intros y E. injection E as <-. exact H. Qed.
Lemma takes_pure {A} n (x : A) phi : phi x <= n -> takes n (pure x) phi.
Proof. apply takes_ok. Qed.
Lemma takes_ub {A} n (phi : A -> Z) : takes n (lift UB) phi.
Proof. apply takes_lift. discriminate. Qed.
Lemma takes_tick {A} n (m : run A) phi : takes (n - 1) m phi -> takes n (tick m) phi.
Proof.
  intros H x k. unfold tick. cbn. destruct (outcome m) as [[y j]|] eqn:E; [|discriminate].
  intros E2. injection E2 as <- <-. specialize (H _ _ E). lia.
Qed.
Lemma takes_charge {A} n j (x : A) phi : 0 <= j -> j + phi x <= n -> takes n (charge j x) phi.
Proof. intros J H y k E. cbn in E. injection E as <- <-. split; [exact J|exact H]. Qed.
Lemma takes_seq {A B} n n0 (m : run A) (k : A -> run B) phi psi :
  takes n0 m phi -> (forall x, erase m = Ok x -> takes (n - n0 + phi x) (k x) psi) ->
  takes n (seq m k) psi.
Proof.
  intros HM HK y j. unfold seq. cbn. destruct (outcome m) as [[x i]|] eqn:E; [|discriminate].
  destruct (outcome (k x)) as [[y2 j2]|] eqn:E2; [|discriminate].
  intros E3. injection E3 as <- <-. specialize (HM _ _ E).
  assert (EM : erase m = Ok x) by (unfold erase; rewrite E; reflexivity).
  specialize (HK x EM _ _ E2). lia.
Qed.
Lemma takes_seq_lift {A B} n (m : res A) (k : A -> run B) psi :
  (forall x, m = Ok x -> takes n (k x) psi) -> takes n (seq (lift m) k) psi.
Proof.
  intros H. apply takes_seq with n (fun _ => n).
  - intros x j E. unfold lift in E. cbn in E. destruct m as [y|]; [|discriminate]. injection E as <- <-. lia.
  - rewrite erase_lift. intros x E. replace (n - n + n) with n by lia. exact (H x E).
Qed.
Lemma takes_weaken {A} n n0 (m : run A) phi psi :
  takes n0 m phi -> (forall x, erase m = Ok x -> psi x + n0 <= phi x + n) -> takes n m psi.
Proof.
  intros H W x k E. specialize (H _ _ E).
  assert (EM : erase m = Ok x) by (unfold erase; rewrite E; reflexivity).
  specialize (W _ EM). lia.
Qed.
(** The value alone is covered as well. *)
Lemma takes_value {A} n (m : run A) phi x : takes n m phi -> erase m = Ok x -> phi x <= n.
Proof.
  intros H. unfold erase. destruct (outcome m) as [[y k]|] eqn:E; [|discriminate].
  intros E2. injection E2 as <-. specialize (H _ _ E). lia.
Qed.

Ltac step :=
  match goal with
  | |- takes _ (seq (lift _) _) _ => apply takes_seq_lift; intros
  | |- takes _ (lift (Ok _)) _ => apply takes_ok
  | |- takes _ (lift UB) _ => apply takes_ub
  | |- takes _ (pure _) _ => apply takes_pure
  | |- takes _ (tick _) _ => apply takes_tick
  | |- takes _ (charge _ _) _ => apply takes_charge
  | |- takes _ (if ?b then _ else _) _ => destruct b eqn:?
  | |- takes _ (match ?x with _ => _ end) _ => destruct x eqn:?
  end.

(** ** Pointers *)
Lemma advance_len n p q : advance n p = Ok q -> remaining q = remaining p - Z.of_nat n.
Proof.
  unfold advance, remaining. destruct (Nat.leb n (length p)) eqn:E; [|discriminate].
  intros H. injection H as <-. apply Nat.leb_le in E. rewrite skipn_length. lia.
Qed.
Lemma remaining_cons x (p : list Z) : remaining (x :: p) = remaining p + 1.
Proof. unfold remaining. cbn [length]. lia. Qed.
Lemma remaining_nonneg p : 0 <= remaining p.
Proof. unfold remaining. lia. Qed.
Lemma remaining_nil : remaining [] = 0.
Proof. reflexivity. Qed.
Lemma remaining_tl p : remaining (tl p) <= remaining p.
Proof. destruct p; unfold remaining; cbn [tl length]; lia. Qed.
Lemma remaining_firstn n p : remaining (firstn n p) <= remaining p.
Proof. unfold remaining. rewrite firstn_length. lia. Qed.

(** ** Scanning the text *)
Lemma simd_loop_takes c : forall fuel p i,
  takes (remaining p) (simd_loop_n fuel c p i) (fun r => remaining (fst r)).
Proof.
  induction fuel as [|fuel IH]; intros p i; cbn [simd_loop_n]; [apply takes_ub|].
  step; [|step; cbn; lia]. step. step; [|step; cbn; lia]. step. step.
  eapply takes_weaken; [apply IH|]. intros r _. cbv beta. apply advance_len in H0. lia.
Qed.
Lemma swar_loop_takes c u : forall fuel p i,
  takes (remaining p) (swar_loop_n fuel c u p i) (fun r => remaining (fst r)).
Proof.
  induction fuel as [|fuel IH]; intros p i; cbn [swar_loop_n]; [apply takes_ub|].
  step; [|step; cbn; lia]. step. step; [|step; cbn; lia]. step. step. step.
  eapply takes_weaken; [apply IH|]. intros r _. cbv beta. apply advance_len in H1. lia.
Qed.
Lemma loop8_takes c u p i :
  takes (remaining p) (loop_parse_if_eight_digits_n c u p i) (fun r => remaining (fst r)).
Proof.
  unfold loop_parse_if_eight_digits_n. step.
  - eapply takes_seq; [apply swar_loop_takes|]. intros [q j] _. cbn [fst].
    replace (remaining p - remaining p + remaining q) with (remaining q) by lia.
    step; [|step; cbn; lia]. step; [|step; cbn; lia]. step. step; [|step; cbn; lia]. step. step. cbn.
    apply advance_len in H0. lia.
  - step; [apply simd_loop_takes|]. step. cbn. lia.
Qed.
Lemma peel_takes u p i k :
  (forall q j, takes (remaining q) (k q j) (fun r => remaining (fst r))) ->
  takes (remaining p) (peel_n u p i k) (fun r => remaining (fst r)).
Proof.
  intros H. unfold peel_n. step; [step; cbn; lia|]. step. step; [|step; cbn [fst]; rewrite remaining_cons; lia]. step.
  eapply takes_weaken; [apply H|]. intros r _. cbv beta. rewrite remaining_cons. lia.
Qed.
Lemma int_digit_loop_takes u : forall p i,
  takes (remaining p) (int_digit_loop_n u p i) (fun r => remaining (fst r)).
Proof.
  induction p as [|x p IH]; intros i; cbn [int_digit_loop_n]; [step; cbn; lia|].
  step. step; [|step; cbn [fst]; lia]. step. step. rewrite remaining_cons.
  eapply takes_weaken; [apply IH|]. intros r _. cbv beta. lia.
Qed.
Lemma scan_integer_takes u p :
  takes (remaining p) (scan_integer_n u p) (fun r => remaining (fst r)).
Proof.
  unfold scan_integer_n. step; [step; cbn; lia|]. step. step; [|step; cbn [fst]; rewrite remaining_cons; lia]. step.
  rewrite remaining_cons. apply takes_weaken with (n0 := remaining l) (phi := fun r => remaining (fst r));
    [|intros r _; cbv beta; lia].
  do 4 (apply peel_takes; intros). apply int_digit_loop_takes.
Qed.
Lemma frac_digit_loop_takes u : forall p i,
  takes (remaining p) (frac_digit_loop_n u p i) (fun r => remaining (fst r)).
Proof.
  induction p as [|x p IH]; intros i; cbn [frac_digit_loop_n]; [step; cbn; lia|].
  step. step; [|step; cbn [fst]; lia]. step. step. rewrite remaining_cons.
  eapply takes_weaken; [apply IH|]. intros r _. cbv beta. lia.
Qed.
Lemma exp_digit_loop_takes u : forall p i,
  takes (remaining p) (exp_digit_loop_n u p i) (fun r => remaining (fst r)).
Proof.
  induction p as [|x p IH]; intros i; cbn [exp_digit_loop_n]; [step; cbn; lia|].
  step. step; [|step; cbn [fst]; lia]. step.
  eapply takes_seq with (n0 := 0) (phi := fun _ => 0).
  { step; [step; apply takes_lift; intros; lia|step; lia]. }
  intros e _. step. rewrite remaining_cons.
  eapply takes_weaken; [apply IH|]. intros r _. cbv beta. lia.
Qed.
Lemma skip_leading_takes dp : forall p n, takes (remaining p) (skip_leading_n dp p n) (fun _ => 0).
Proof.
  induction p as [|x p IH]; intros n; cbn [skip_leading_n]; [step; cbn; lia|].
  pose proof (remaining_nonneg p). step; [|step; rewrite remaining_cons; lia].
  eapply takes_seq with (n0 := 0) (phi := fun _ => 0).
  { step; [apply takes_lift; intros; lia|step; lia]. }
  intros e _. step. rewrite remaining_cons.
  eapply takes_weaken; [apply IH|]. intros r _. cbv beta. lia.
Qed.
Lemma nineteen_loop_takes u : forall p i, takes (remaining p) (nineteen_loop_n u p i) (fun r => remaining (fst r)).
Proof.
  induction p as [|x p IH]; intros i; cbn [nineteen_loop_n]; [step; cbn; lia|].
  step; [|step; cbn [fst]; lia]. step. step. rewrite remaining_cons.
  eapply takes_weaken; [apply IH|]. intros r _. cbv beta. lia.
Qed.
Definition spans_len (n : parsed) : Z :=
  remaining (span_list (pn_integer n)) + remaining (span_list (pn_fraction n)).
Lemma spans_len_nonneg n : 0 <= spans_len n.
Proof. unfold spans_len. pose proof (remaining_nonneg (span_list (pn_integer n))).
  pose proof (remaining_nonneg (span_list (pn_fraction n))). lia. Qed.

Lemma parse_exponent_takes u fmt p e :
  takes (remaining p) (parse_exponent_n u fmt p e) (fun r => match r with inl e => spans_len e | inr _ => 0 end).
Proof.
  pose proof (remaining_nonneg p) as NP. unfold parse_exponent_n. step; [|step; [step; cbn; lia|step; lia]].
  match goal with |- context [at_digit u ?q] => set (q0 := q) end.
  assert (HQ : remaining q0 <= remaining p).
  { unfold q0. repeat (match goal with |- context [if ?b then _ else _] => destruct b end);
      repeat first [apply Z.le_refl | eapply Z.le_trans; [apply remaining_tl|]]. }
  clearbody q0. step. step; [step; step; cbn; lia|].
  eapply takes_seq; [apply exp_digit_loop_takes|]. intros [q e1] _. cbn [fst].
  pose proof (remaining_nonneg q). pose proof (remaining_nonneg q0).
  eapply takes_seq with (n0 := 0) (phi := fun _ => 0).
  { step; [apply takes_lift; intros; lia|step; lia]. }
  intros e2 _. step. step. lia.
Qed.
Lemma recompute_takes u ip fp e :
  takes (remaining (span_list ip) + remaining (span_list fp)) (recompute_n u ip fp e) (fun _ => 0).
Proof.
  pose proof (remaining_nonneg (span_list ip)). pose proof (remaining_nonneg (span_list fp)).
  unfold recompute_n. eapply takes_seq; [apply nineteen_loop_takes|]. intros [q i] _. cbn [fst].
  pose proof (remaining_nonneg q). step; [step; step; lia|].
  eapply takes_seq; [apply nineteen_loop_takes|]. intros [q2 i2] _. cbn [fst].
  pose proof (remaining_nonneg q2). step. step. lia.
Qed.

(** The texts of the two spans that are stored lie side by side in the text. *)
Lemma remaining_span p q : remaining (firstn (length p - length q) p) = Z.max 0 (remaining p - remaining q).
Proof. unfold remaining. rewrite firstn_length. lia. Qed.

(** A bound together with a fact about the value. *)
Lemma takes_fact {A} n (m : run A) phi (P : A -> Prop) (b : A -> bool) :
  (forall x, b x = true -> P x) ->
  takes n m (fun x => if b x then phi x else n + 1) ->
  takes n m phi /\ forall x, erase m = Ok x -> P x.
Proof.
  intros HB H. split.
  - intros x k E. specialize (H x k E). cbv beta in H. destruct (b x); lia.
  - intros x E. apply HB. pose proof (takes_value _ _ _ _ H E) as L. cbv beta in L.
    destruct (b x); [reflexivity|lia].
Qed.

Lemma parse_number_takes c u bjf p o (spans : bool) :
  takes ((if spans then 4 else 2) * remaining p) (parse_number_string_n c u bjf p o spans) spans_len.
Proof.
  unfold parse_number_string_n. set (fmt := adjust_for_feature_macros c (o_format o)).
  set (dp := o_decimal_point o). pose proof (remaining_nonneg p) as NP. step.
  match goal with |- takes _ (seq ?m _) _ => assert (T : takes (remaining p) m
    (fun r => match r with inl e => spans_len e | inr q => remaining q end)) end.
  { step; [|step; lia]. pose proof (remaining_tl p) as TP. destruct (tl p) as [|ch p1]; [step; cbn; lia|].
    step. step; (step; [step; cbn; lia|]; step; lia). }
  eapply takes_seq; [exact T|]. intros [e|p1] E1; [step; destruct spans; lia|].
  pose proof (takes_value _ _ _ _ T E1) as L1. cbn in L1. clear T E1.
  pose proof (remaining_nonneg p1) as N1.
  apply takes_weaken with ((if spans then 4 else 2) * remaining p1) spans_len; [|intros; destruct spans; lia].
  eapply takes_seq; [apply scan_integer_takes|]. intros [p2 i2] E2. cbn [fst].
  pose proof (takes_value _ _ _ _ (scan_integer_takes u p1) E2) as L2. cbn [fst] in L2.
  pose proof (remaining_nonneg p2) as N2.
  step; [step; cbn; destruct spans; lia|]. step; [step; cbn; destruct spans; lia|].
  (* the fraction *)
  match goal with |- takes _ (seq ?m _) _ => destruct (takes_fact (remaining p2) m
    (fun r => remaining (fst (fst (fst (fst r)))))
    (fun r => remaining (span_list (snd r)) + remaining (fst (fst (fst (fst r)))) <= remaining p2 /\
              (spans = false -> snd r = None))
    (fun r => (remaining (span_list (snd r)) + remaining (fst (fst (fst (fst r)))) <=? remaining p2) &&
              (spans || match snd r with None => true | _ => false end))) as [T F] end.
  { intros [[[[p3 i3] ex] dc] fr] E. cbn [fst snd] in *. apply andb_prop in E. destruct E as [E1 E3].
    apply Z.leb_le in E1. split; [exact E1|]. intros ->. destruct fr; [discriminate|reflexivity]. }
  { pose proof (remaining_tl p2) as T2.
    step; [|step; cbn [fst snd span_list]; rewrite orb_true_r, andb_true_r, (proj2 (Z.leb_le _ _)) by (cbn; lia); lia].
    eapply takes_seq; [apply loop8_takes|]. intros [p3 i3] E3. cbn [fst].
    pose proof (takes_value _ _ _ _ (loop8_takes c u (tl p2) i2) E3) as L3. cbn [fst] in L3.
    eapply takes_seq; [apply frac_digit_loop_takes|]. intros [p4 i4] E4. cbn [fst].
    pose proof (takes_value _ _ _ _ (frac_digit_loop_takes u p3 i3) E4) as L4. cbn [fst] in L4.
    pose proof (remaining_nonneg p4) as N4. step. step. cbn [fst snd].
    rewrite (proj2 (Z.leb_le _ _)).
    - destruct spans; cbn [andb orb]; lia.
    - destruct spans; cbn [span_list]; [rewrite remaining_span|change (remaining []) with 0]; lia. }
  eapply takes_seq; [exact T|]. intros [[[[p3 i3] ex] dc] fr] E3. destruct (F _ E3) as [L3 F3]. cbn [fst snd] in *.
  clear T F E3. pose proof (remaining_nonneg p3) as N3. pose proof (remaining_nonneg (span_list fr)) as NF.
  step; [step; cbn; destruct spans; lia|]. step; [step; cbn; destruct spans; lia|].
  eapply takes_seq; [apply parse_exponent_takes|]. intros [e|[[p4 en] ex2]] E4.
  { step. destruct spans; lia. }
  clear E4.
  apply takes_seq with (n0 := remaining p1 + (if spans then Z.max 0 (remaining p1 - remaining p2) + remaining (span_list fr) else 0))
    (phi := fun _ => 0).
  { step; [|step; destruct spans; lia].
    eapply takes_seq; [apply skip_leading_takes|]. intros dc2 _. cbv beta.
    step; [|step; destruct spans; lia]. destruct spans; [|step; lia].
    eapply takes_seq; [apply recompute_takes|]. intros [i5 ex5] _. cbn [span_list]. rewrite remaining_span. step. lia. }
  intros [[i6 ex6] tm] _. step. unfold spans_len. cbn [pn_integer pn_fraction].
  destruct spans; cbn [span_list].
  - rewrite remaining_span. lia.
  - rewrite F3 by reflexivity. cbn [span_list]. change (remaining []) with 0. lia.
Qed.

(** ** Special values, white space *)
Lemma nan_payload_takes : forall p, takes (remaining p) (nan_payload_n p) (fun _ => 0).
Proof.
  induction p as [|x p IH]; cbn [nan_payload_n]; [step; cbn; lia|].
  pose proof (remaining_nonneg p). rewrite remaining_cons.
  step; [step; lia|]. step; [|step; lia]. step. replace (remaining p + 1 - 1) with (remaining p) by lia. exact IH.
Qed.
Lemma parse_infnan_takes c u t p fmt : takes (remaining p) (parse_infnan_n c u t p fmt) (fun _ => 0).
Proof.
  unfold parse_infnan_n. step.
  match goal with |- context [if 3 <=? remaining ?q then _ else _] => set (q0 := q) end.
  assert (HQ : remaining q0 <= remaining p).
  { unfold q0. destruct ((x =? 45) || _); [apply remaining_tl|lia]. }
  clearbody q0. pose proof (remaining_nonneg q0).
  step; [|step; lia]. step. step.
  - step. apply advance_len in H2. eapply takes_seq with (n0 := remaining q0) (phi := fun _ => 0).
    { pose proof (remaining_nonneg x1). destruct x1 as [|ch q4]; [step; lia|]. rewrite remaining_cons in *.
      pose proof (remaining_nonneg q4). step; [|step; lia].
      eapply takes_seq; [apply nan_payload_takes|]. intros r _. step. lia. }
    intros r _. step. lia.
  - step. step; [|step; lia]. step. eapply takes_seq with (n0 := 0) (phi := fun _ => 0).
    { step; [apply takes_lift; intros; lia|step; lia]. }
    intros r _. eapply takes_seq with (n0 := 0) (phi := fun _ => 0).
    { step; [apply takes_lift; intros; lia|step; lia]. }
    intros r2 _. step. lia.
Qed.
Lemma skip_ws_takes : forall p, takes (remaining p) (skip_ws_n p) remaining.
Proof.
  induction p as [|x p IH]; cbn [skip_ws_n]; [step; lia|].
  step. step; [|step; lia]. step. rewrite remaining_cons. replace (remaining p + 1 - 1) with (remaining p) by lia. exact IH.
Qed.

(** ** Integers *)
Lemma int_skip_zeros_takes : forall p, takes (remaining p) (int_skip_zeros_n p) remaining.
Proof.
  induction p as [|x p IH]; cbn [int_skip_zeros_n]; [step; cbn; lia|].
  step; [|step; lia]. step. rewrite remaining_cons. replace (remaining p + 1 - 1) with (remaining p) by lia. exact IH.
Qed.
Lemma skip_plain_digits_takes : forall p, takes (remaining p) (skip_plain_digits_n p) remaining.
Proof.
  induction p as [|x p IH]; cbn [skip_plain_digits_n]; [step; cbn; lia|].
  step; [step; lia|]. step. rewrite remaining_cons. replace (remaining p + 1 - 1) with (remaining p) by lia. exact IH.
Qed.
Lemma skip_integer_digits_takes u : forall p, takes (remaining p) (skip_integer_digits_n u p) remaining.
Proof.
  induction p as [|x p IH]; cbn [skip_integer_digits_n]; [step; cbn; lia|].
  step. step; [|step; lia]. step. rewrite remaining_cons. replace (remaining p + 1 - 1) with (remaining p) by lia. exact IH.
Qed.
Lemma int_loop_takes u b : forall p i, takes (remaining p) (int_loop_n u b p i) (fun r => remaining (fst r)).
Proof.
  induction p as [|x p IH]; intros i; cbn [int_loop_n]; [step; cbn; lia|].
  step. step; [step; cbn [fst]; lia|]. step. rewrite remaining_cons. replace (remaining p + 1 - 1) with (remaining p) by lia. apply IH.
Qed.
Lemma parse_u8_takes c u lz first p : takes (remaining p) (parse_u8_n c u lz first p) (fun _ => 0).
Proof.
  pose proof (remaining_nonneg p). unfold parse_u8_n. step; [step; lia|]. step.
  match goal with |- takes _ (if ?b then _ else _) _ => destruct b end; [step; lia|].
  match goal with |- takes _ (if ?b then _ else _) _ => destruct b end.
  - step. apply advance_len in H1. eapply takes_seq; [apply skip_plain_digits_takes|]. intros q _.
    pose proof (remaining_nonneg q). step. lia.
  - step. step. step; step; lia.
Qed.
Lemma parse_u16_takes c u lz first p :
  takes (remaining p) (parse_u16_n c u lz first p) (fun r => match r with None => remaining p | Some _ => 0 end).
Proof.
  pose proof (remaining_nonneg p). unfold parse_u16_n. step; [step; lia|]. step; [|step; lia]. step.
  step; [|step; lia]. eapply takes_seq with (n0 := 0) (phi := fun _ => 0).
  { step; [step; step; step; lia|step; lia]. }
  intros d5 _. step.
  - step. step. eapply takes_seq with (n0 := 0) (phi := fun _ => 0).
    { step; [step; apply takes_lift; intros; lia|step; lia]. }
    intros d6 _. step. apply advance_len in H3. step.
    + eapply takes_seq; [apply skip_integer_digits_takes|]. intros q _. pose proof (remaining_nonneg q). step. lia.
    + step; step; lia.
  - step. step. lia.
Qed.
Lemma parse_int_general_takes c u T b neg lz first p :
  takes (remaining p) (parse_int_general_n c u T b neg lz first p) (fun _ => 0).
Proof.
  unfold parse_int_general_n. eapply takes_seq with (n0 := remaining p) (phi := fun r => remaining (fst r)).
  { step; [apply loop8_takes|]. step. cbn. lia. }
  intros [q i] _. cbn [fst]. eapply takes_seq; [apply int_loop_takes|]. intros [q2 i2] _. cbn [fst].
  pose proof (remaining_nonneg q2). step; [step; lia|]. step. step; [step; lia|]. step. step; [step; lia|].
  step; [step; lia|]. step; [step; step; lia|]. step. lia.
Qed.
Theorem from_chars_int_takes c u T p o :
  takes (remaining p) (from_chars_int_advanced_n c u T p o) (fun _ => 0).
Proof.
  unfold from_chars_int_advanced_n.
  eapply takes_seq with (n0 := remaining p) (phi := remaining).
  { step; [apply skip_ws_takes|]. step. lia. }
  intros q _. replace (remaining p - remaining p + remaining q) with (remaining q) by lia. clear p.
  pose proof (remaining_nonneg q) as NQ. destruct q as [|ch q']; [step; lia|]. set (q := ch :: q') in *.
  step; [step; lia|]. unfold parse_int_string_n. step. step; [step; lia|].
  match goal with |- context [int_skip_zeros_n ?q] => set (q0 := q) end.
  assert (HQ : remaining q0 <= remaining q).
  { unfold q0. match goal with |- context [if ?b then _ else _] => destruct b end; [apply remaining_tl|lia]. }
  clearbody q0. eapply takes_seq; [apply int_skip_zeros_takes|]. intros q1 _. cbv beta.
  pose proof (remaining_nonneg q1).
  eapply takes_weaken with (n0 := remaining q1) (phi := fun _ => 0); [|intros; lia].
  step; [apply parse_u8_takes|].
  eapply takes_seq with (n0 := remaining q1) (phi := fun r => match r with None => remaining q1 | Some _ => 0 end).
  { step; [apply parse_u16_takes|]. step. lia. }
  intros [r|] _; [step; lia|].
  replace (remaining q1 - remaining q1 + remaining q1) with (remaining q1) by lia. apply parse_int_general_takes.
Qed.
