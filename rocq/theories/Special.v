(** parse_infnan and the white-space loop refine the grammar. *)
From Verif Require Import Machine Config Chars Format ParseNumber DecToBin DigitComp FromChars WordLemmas.
From Verif Require Import SpecFloat SpecGrammar SpecApi FloatBridge ComputeFloat Swar Scan ParseSpec.
Open Scope Z_scope.

(** ** Case folding by [| 32] *)

Lemma lor32_letter y e : 0 <= y -> 97 <= e <= 122 -> (Z.lor y 32 = e <-> y = e \/ y = e - 32).
Proof.
  intros Hy He.
  assert (T : forallb (fun y => forallb (fun e => Bool.eqb (Z.lor y 32 =? e) ((y =? e) || (y =? e - 32)))
      (map Z.of_nat (seq 97 26))) (map Z.of_nat (seq 0 128)) = true) by (vm_compute; reflexivity).
  assert (M : Z.lor y 32 = e -> y < 128).
  { intros E. destruct (Z_lt_ge_dec y 128) as [L|G]; [exact L|]. exfalso.
    assert (A : Z.log2 128 <= Z.log2 y) by (apply Z.log2_le_mono; lia).
    assert (B : Z.log2 e <= Z.log2 122) by (apply Z.log2_le_mono; lia).
    rewrite <- E, Z.log2_lor in B by lia. change (Z.log2 122) with 6 in B. change (Z.log2 128) with 7 in A. lia. }
  destruct (Z_lt_ge_dec y 128) as [L|G].
  - rewrite forallb_forall in T. specialize (T y).
    assert (I1 : In y (map Z.of_nat (seq 0 128))) by (apply in_map_iff; exists (Z.to_nat y); split; [lia|apply in_seq; lia]).
    specialize (T I1). rewrite forallb_forall in T. specialize (T e).
    assert (I2 : In e (map Z.of_nat (seq 97 26))) by (apply in_map_iff; exists (Z.to_nat e); split; [lia|apply in_seq; lia]).
    specialize (T I2). apply Bool.eqb_prop in T.
    destruct (Z.eqb_spec (Z.lor y 32) e), (Z.eqb_spec y e), (Z.eqb_spec y (e - 32)); cbn in T; try discriminate; tauto.
  - split; [intros E; specialize (M E); lia|lia].
Qed.

Definition lower (u : uc) (x : Z) : Z := Z.lor (x mod 2 ^ uc_bits u) 32.

Lemma uc_bits_cases u : uc_bits u = 8 \/ uc_bits u = 16 \/ uc_bits u = 32.
Proof. destruct u; cbn; auto. Qed.

Lemma okc_mod u x : okc u x -> 0 <= x mod 2 ^ uc_bits u < 2 ^ uc_bits u /\
  (x mod 2 ^ uc_bits u = x \/ (x < 0 /\ 128 <= x mod 2 ^ uc_bits u)).
Proof.
  intros H. assert (P : 0 < 2 ^ uc_bits u) by (destruct u; cbn; lia).
  split; [apply Z.mod_pos_bound; exact P|].
  apply okc_bounds in H.
  destruct (Z_lt_ge_dec x 0) as [L|G]; [right|left].
  - split; [exact L|]. rewrite <- (Z.mod_add x 1 (2 ^ uc_bits u)) by lia.
    assert (B : 128 <= x + 1 * 2 ^ uc_bits u < 2 ^ uc_bits u).
    { destruct u; cbn [uc_bits]; try lia; change (2 ^ 8) with 256; change (2 ^ 32) with 4294967296; lia. }
    rewrite Z.mod_small by lia. lia.
  - apply Z.mod_small. destruct u; cbn [uc_bits];
      try change (2 ^ 8) with 256; try change (2 ^ 16) with 65536; try change (2 ^ 32) with 4294967296; lia.
Qed.

Lemma lower_letter u x e : okc u x -> 97 <= e <= 122 -> (lower u x = e <-> x = e \/ x = e - 32).
Proof.
  intros H He. destruct (okc_mod u x H) as [R C]. unfold lower. rewrite lor32_letter by lia.
  destruct C as [->|[C1 C2]]; [reflexivity|]. lia.
Qed.

Lemma lor_letter u x e : okc u x -> 97 <= e <= 122 -> (Z.lor x 32 = e <-> x = e \/ x = e - 32).
Proof.
  intros H He. destruct (Z_lt_ge_dec x 0) as [L|G]; [|apply lor32_letter; lia].
  assert (N : Z.lor x 32 < 0) by (apply Z.lor_neg; auto). lia.
Qed.

Definition letters (w : list Z) : Prop := Forall (fun e => 97 <= e <= 122) w.

Lemma same_letters_iff u w : letters w -> forall p rest, Forall (okc u) p -> (length w <= length p)%nat ->
  (same_letters w p rest <-> map (lower u) (firstn (length w) p) = w /\ rest = skipn (length w) p).
Proof.
  induction 1 as [|e w He Hw IH]; intros p rest OK L.
  - cbn. split; [intros H; inversion H; auto|]. intros [_ ->]. constructor.
  - destruct p as [|x p]; [cbn in L; lia|]. inversion OK; subst. cbn [length] in L. cbn [length firstn skipn map].
    specialize (IH p rest ltac:(assumption) ltac:(lia)). split.
    + intros H. inversion H; subst. destruct (proj1 IH ltac:(assumption)) as [-> ->].
      split; [|reflexivity]. f_equal. apply lower_letter; assumption.
    + intros [E ->]. injection E as E1 E2. constructor; [apply (lower_letter u); assumption|]. apply IH. auto.
Qed.

Lemma same_letters_length w p rest : same_letters w p rest -> (length w <= length p)%nat.
Proof. induction 1; cbn [length]; lia. Qed.

Lemma same_letters_unique w p : forall r1 r2, same_letters w p r1 -> same_letters w p r2 -> r1 = r2.
Proof. intros r1 r2 H. revert r2. induction H; intros r2 H2; inversion H2; subst; auto. Qed.

(** ** Word-wise comparison *)

Lemma le_word_cons_w w x l : le_word w (x :: l) = x + le_word w l * 2 ^ w.
Proof. cbn [le_word]. lia. Qed.

Lemma lor_lanes w l : 6 <= w -> Forall (fun x => 0 <= x < 2 ^ w) l ->
  Z.lor (le_word w l) (le_word w (repeat 32 (length l))) = le_word w (map (fun x => Z.lor x 32) l).
Proof.
  intros Hw H. induction H as [|x l Hx Hl IH]; [reflexivity|].
  cbn [length repeat map]. rewrite !le_word_cons_w.
  rewrite lor_split; [|lia|exact Hx|]. { rewrite IH. reflexivity. }
  split; [lia|]. change 32 with (2 ^ 5). apply Z.pow_lt_mono_r; lia.
Qed.

Lemma le_word_inj w : 0 <= w -> forall a b, length a = length b ->
  Forall (fun x => 0 <= x < 2 ^ w) a -> Forall (fun x => 0 <= x < 2 ^ w) b -> le_word w a = le_word w b -> a = b.
Proof.
  intros Hw. induction a as [|x a IH]; intros [|y b] L A B E; try discriminate; [reflexivity|].
  inversion A; subst. inversion B; subst. rewrite !le_word_cons_w in E. cbn [length] in L.
  assert (x = y).
  { apply (f_equal (fun z => z mod 2 ^ w)) in E. rewrite !Z.mod_add, !Z.mod_small in E by lia. exact E. }
  subst y. f_equal. apply IH; try assumption; try lia.
  assert (le_word w a * 2 ^ w = le_word w b * 2 ^ w) by lia. nia.
Qed.

Lemma lor32_range w x : 6 <= w -> 0 <= x < 2 ^ w -> 0 <= Z.lor x 32 < 2 ^ w.
Proof.
  intros Hw Hx. split; [apply Z.lor_nonneg; lia|].
  assert (P : 0 < Z.lor x 32).
  { assert (N : 0 <= Z.lor x 32) by (apply Z.lor_nonneg; lia).
    destruct (Z.eq_dec (Z.lor x 32) 0) as [E|E]; [|lia]. apply Z.lor_eq_0_iff in E. lia. }
  apply Z.log2_lt_pow2; [exact P|]. rewrite Z.log2_lor by lia.
  change (Z.log2 32) with 5. apply Z.max_lub_lt; [|lia].
  destruct (Z.eq_dec x 0) as [->|N]; [change (Z.log2 0) with 0; lia|]. apply Z.log2_lt_pow2; lia.
Qed.

Lemma case_mask_lanes u : case_mask u = le_word (uc_bits u) (repeat 32 (Z.to_nat (8 / uc_size u))).
Proof. destruct u; vm_compute; reflexivity. Qed.

Lemma rev_repeat {A} (x : A) n : rev (repeat x n) = repeat x n.
Proof.
  induction n as [|n IH]; [reflexivity|]. cbn [repeat rev]. rewrite IH. clear IH.
  induction n as [|n IH]; [reflexivity|]. cbn [repeat app]. rewrite IH. reflexivity.
Qed.

Lemma letters_fix u w : letters w -> map (lower u) w = w /\ map (fun x => x mod 2 ^ uc_bits u) w = w /\
  map (fun x => Z.lor x 32) w = w.
Proof.
  induction 1 as [|e w He Hw (IH1 & IH2 & IH3)]; [auto|]. cbn [map]. rewrite IH1, IH2, IH3.
  assert (M : e mod 2 ^ uc_bits u = e) by (apply Z.mod_small; destruct u; cbn; lia).
  assert (L : Z.lor e 32 = e) by (apply lor32_letter; [lia|lia|auto]).
  unfold lower. rewrite M, L. auto.
Qed.

Lemma casecmp_word_spec c u both p w :
  letters w -> (length w <= length p)%nat -> (length w <= Z.to_nat (8 / uc_size u))%nat ->
  (both = false -> length w = Z.to_nat (8 / uc_size u)) ->
  exists b, casecmp_word c u both p w = Ok b /\ (b = true <-> map (lower u) (firstn (length w) p) = w).
Proof.
  intros LW LP LN BO. unfold casecmp_word. rewrite take_Ok by exact LP. cbn [bind].
  eexists. split; [reflexivity|]. rewrite Z.eqb_eq.
  assert (W6 : 6 <= uc_bits u) by (destruct u; cbn; lia).
  set (n := Z.to_nat (8 / uc_size u)) in *. set (m := fun x => x mod 2 ^ uc_bits u).
  destruct (letters_fix u w LW) as (F1 & F2 & F3). fold m in F2.
  (* both sides with the mask *)
  assert (V2 : (if both then Z.lor (mem_word c u 8 w) (case_mask u) else mem_word c u 8 w) =
               Z.lor (mem_word c u 8 w) (case_mask u)).
  { destruct both; [reflexivity|]. specialize (BO eq_refl). rewrite case_mask_lanes. fold n. unfold mem_word. fold n m.
    rewrite F2, BO, Nat.sub_diag. cbn [repeat]. rewrite app_nil_r.
    rewrite <- BO. destruct (big_endian c).
    - rewrite <- (rev_length w). rewrite lor_lanes; [|exact W6|].
      + rewrite map_rev, F3. reflexivity.
      + apply Forall_rev. eapply Forall_impl; [|exact LW]. cbn. intros x Hx.
        assert (2 ^ 8 <= 2 ^ uc_bits u) by (destruct u; cbn; lia). lia.
    - rewrite lor_lanes; [|exact W6|].
      + rewrite F3. reflexivity.
      + eapply Forall_impl; [|exact LW]. cbn. intros x Hx.
        assert (2 ^ 8 <= 2 ^ uc_bits u) by (destruct u; cbn; lia). lia. }
  rewrite V2. clear V2 BO.
  assert (P : 0 < 2 ^ uc_bits u) by (destruct u; cbn; lia).
  assert (M : forall l, (length l <= n)%nat -> Z.lor (mem_word c u 8 l) (case_mask u) =
    le_word (uc_bits u) (map (fun x => Z.lor x 32) (if big_endian c then rev (map m l ++ repeat 0 (n - length l)) else map m l ++ repeat 0 (n - length l)))).
  { intros l Hl. rewrite case_mask_lanes. fold n. unfold mem_word. fold n m.
    assert (LL : length (map m l ++ repeat 0 (n - length l)) = n) by (rewrite app_length, map_length, repeat_length; lia).
    assert (RG : Forall (fun x => 0 <= x < 2 ^ uc_bits u) (map m l ++ repeat 0 (n - length l))).
    { apply Forall_app. split.
      - apply Forall_map. apply Forall_forall. intros x _. apply Z.mod_pos_bound. exact P.
      - apply Forall_forall. intros x Hx. apply repeat_spec in Hx. lia. }
    destruct (big_endian c).
    - pose proof (lor_lanes (uc_bits u) (rev (map m l ++ repeat 0 (n - length l))) W6 (Forall_rev RG)) as Q.
      rewrite rev_length, LL in Q. exact Q.
    - pose proof (lor_lanes (uc_bits u) (map m l ++ repeat 0 (n - length l)) W6 RG) as Q.
      rewrite LL in Q. exact Q. }
  assert (LF : length (firstn (length w) p) = length w) by (rewrite firstn_length; lia).
  rewrite !M by (rewrite ?LF; exact LN). rewrite LF.
  assert (RG : forall l, Forall (fun x => 0 <= x < 2 ^ uc_bits u)
     (map (fun x => Z.lor x 32) (if big_endian c then rev (map m l ++ repeat 0 (n - length w)) else map m l ++ repeat 0 (n - length w)))).
  { intros l. apply Forall_map.
    assert (A : Forall (fun x => 0 <= x < 2 ^ uc_bits u) (map m l ++ repeat 0 (n - length w))).
    { apply Forall_app. split.
      - apply Forall_map. apply Forall_forall. intros x _. apply Z.mod_pos_bound. exact P.
      - apply Forall_forall. intros x Hx. apply repeat_spec in Hx. lia. }
    assert (B : Forall (fun x => 0 <= x < 2 ^ uc_bits u) (if big_endian c then rev (map m l ++ repeat 0 (n - length w)) else map m l ++ repeat 0 (n - length w))).
    { destruct (big_endian c); [apply Forall_rev|]; exact A. }
    eapply Forall_impl; [|exact B]. cbn. intros x Hx. apply lor32_range; assumption. }
  assert (EQ : map (lower u) (firstn (length w) p) = map (fun x => Z.lor x 32) (map m (firstn (length w) p))).
  { rewrite map_map. reflexivity. }
  rewrite EQ. rewrite F2. split.
  - intros E. apply le_word_inj in E; [|lia| |apply RG|generalize (RG w); rewrite F2; exact (fun H => H)].
    + assert (E2 : map (fun x => Z.lor x 32) (map m (firstn (length w) p) ++ repeat 0 (n - length w)) =
                   map (fun x => Z.lor x 32) (w ++ repeat 0 (n - length w))).
      { destruct (big_endian c); [|exact E]. rewrite !map_rev in E.
        apply (f_equal (@rev Z)) in E. rewrite !rev_involutive in E. exact E. }
      rewrite !map_app, F3 in E2. apply app_inv_tail in E2. exact E2.
    + rewrite !map_length. destruct (big_endian c); rewrite ?rev_length, !app_length, map_length, LF; reflexivity.
  - intros E. f_equal.
    assert (E2 : map (fun x => Z.lor x 32) (map m (firstn (length w) p) ++ repeat 0 (n - length w)) =
                 map (fun x => Z.lor x 32) (w ++ repeat 0 (n - length w))).
    { rewrite !map_app, E, F3. reflexivity. }
    destruct (big_endian c); [|exact E2]. rewrite !map_rev, E2. reflexivity.
Qed.

Lemma casecmp_const_spec u w : letters w -> forall p, Forall (okc u) p -> (length w <= length p)%nat ->
  exists b, casecmp_const p w = Ok b /\ (b = true <-> map (lower u) (firstn (length w) p) = w).
Proof.
  induction 1 as [|e w He Hw IH]; intros p OK L.
  - exists true. split; [reflexivity|]. cbn. tauto.
  - destruct p as [|x p]; [cbn in L; lia|]. inversion OK; subst. cbn [length] in L.
    cbn [casecmp_const deref bind tl length firstn map].
    destruct (Z.eqb_spec (Z.lor x 32) e) as [E|N].
    + destruct (IH p ltac:(assumption) ltac:(lia)) as (b & -> & B). exists b. split; [reflexivity|].
      apply (lor_letter u) in E; try assumption. apply (lower_letter u) in E; try assumption.
      rewrite B, E. split; [intros ->; reflexivity|intros Q; injection Q as Q; exact Q].
    + exists false. split; [reflexivity|]. split; [discriminate|]. intros Q. injection Q as Q1 Q2. exfalso. apply N.
      apply (lor_letter u); try assumption. apply (lower_letter u); assumption.
Qed.

Lemma strncasecmp3_spec c u p w x : letters w -> length w = 3%nat -> Forall (okc u) p -> (3 <= length p)%nat ->
  exists b, strncasecmp3 c u p (w ++ x) = Ok b /\ (b = true <-> map (lower u) (firstn 3 p) = w).
Proof.
  intros LW L OK LP. unfold strncasecmp3.
  assert (F : firstn 3 (w ++ x) = w) by (destruct w as [|a0 [|a1 [|a2 [|]]]]; try discriminate; reflexivity).
  rewrite F.
  destruct (in_constexpr c).
  { rewrite <- L. apply casecmp_const_spec; try assumption. lia. }
  assert (S : uc_size u = uc_bits u / 8) by (destruct u; reflexivity).
  destruct (uc_bits_cases u) as [B|[B|B]]; rewrite B in S; cbn in S; rewrite B.
  - rewrite <- L. apply casecmp_word_spec; [exact LW|lia|rewrite S; cbn; lia|discriminate].
  - rewrite <- L. apply casecmp_word_spec; [exact LW|lia|rewrite S; cbn; lia|discriminate].
  - destruct w as [|a [|b [|d [|]]]]; try discriminate. inversion LW as [|? ? La LW2]; subst. inversion LW2 as [|? ? Lb LW3]; subst.
    inversion LW3; subst. cbn [app firstn].
    destruct p as [|y0 [|y1 [|y2 p]]]; cbn [length] in LP; try lia.
    destruct (casecmp_word_spec c u false (y0 :: y1 :: y2 :: p) [a; b]) as (r & -> & R);
      [repeat constructor; lia|cbn; lia|rewrite S; cbn; lia|intros _; rewrite S; reflexivity|].
    cbn [bind]. cbn [length firstn map] in R. cbn [firstn map].
    inversion OK as [|? ? O0 OK1]; subst. inversion OK1 as [|? ? O1 OK2]; subst. inversion OK2 as [|? ? O2 OK3]; subst.
    destruct r.
    + rewrite advance_Ok by (cbn; lia). cbn [skipn bind deref]. cbn [nth_res]. unfold nth_res. cbn [Z.ltb Z.compare Z.to_nat Pos.to_nat Pos.iter_op Nat.add nth_error bind].
      eexists. split; [reflexivity|]. rewrite Z.eqb_eq. rewrite (lor_letter u), <- (lower_letter u) by assumption.
      destruct R as [R _]. specialize (R eq_refl). injection R as R1 R2. rewrite R1, R2. split; [intros ->; reflexivity|]. intros Q; injection Q as Q; exact Q.
    + exists false. split; [reflexivity|]. split; [discriminate|]. intros Q. injection Q as Q1 Q2 _. apply R. rewrite Q1, Q2. reflexivity.
Qed.

Lemma strncasecmp5_spec c u p w : letters w -> length w = 5%nat -> Forall (okc u) p -> (5 <= length p)%nat ->
  exists b, strncasecmp5 c u p w = Ok b /\ (b = true <-> map (lower u) (firstn 5 p) = w).
Proof.
  intros LW L OK LP. unfold strncasecmp5.
  assert (F : firstn 5 w = w) by (rewrite <- L; apply firstn_all). rewrite F.
  destruct (in_constexpr c).
  { rewrite <- L. apply casecmp_const_spec; try assumption. lia. }
  assert (S : uc_size u = uc_bits u / 8) by (destruct u; reflexivity).
  destruct w as [|a [|b [|d [|e [|f [|]]]]]]; try discriminate.
  destruct p as [|y0 [|y1 [|y2 [|y3 [|y4 p]]]]]; cbn [length] in LP; try lia.
  assert (LA : 97 <= a <= 122 /\ 97 <= b <= 122 /\ 97 <= d <= 122 /\ 97 <= e <= 122 /\ 97 <= f <= 122).
  { unfold letters in LW. rewrite Forall_forall in LW. repeat split; apply LW; cbn; auto 6. }
  destruct LA as (La & Lb & Ld & Le & Lf).
  assert (O4 : okc u y4) by (rewrite Forall_forall in OK; apply OK; cbn; auto 6).
  assert (LAST : forall b0 : bool, (b0 = true <-> map (lower u) [y0; y1; y2; y3] = [a; b; d; e]) ->
     exists b1, (if b0 then (let* p4 := advance 4 (y0 :: y1 :: y2 :: y3 :: y4 :: p) in
        let* ch := deref p4 in let* x := nth_res [a; b; d; e; f] 4 in Ok (Z.lor ch 32 =? x)) else Ok false) = Ok b1 /\
      (b1 = true <-> map (lower u) (firstn 5 (y0 :: y1 :: y2 :: y3 :: y4 :: p)) = [a; b; d; e; f])).
  { intros b0 R. cbn [map] in R. cbn [firstn map]. destruct b0.
    - rewrite advance_Ok by (cbn; lia). cbn [skipn bind deref]. unfold nth_res. cbn [Z.ltb Z.compare Z.to_nat Pos.to_nat Pos.iter_op Nat.add nth_error bind].
      eexists. split; [reflexivity|]. rewrite Z.eqb_eq. rewrite (lor_letter u), <- (lower_letter u) by assumption.
      destruct R as [R _]. specialize (R eq_refl). injection R as R1 R2 R3 R4. rewrite R1, R2, R3, R4. split; [intros ->; reflexivity|]. intros Q; injection Q as Q; exact Q.
    - exists false. split; [reflexivity|]. split; [discriminate|]. intros Q. injection Q as Q1 Q2 Q3 Q4 _. apply R. rewrite Q1, Q2, Q3, Q4. reflexivity. }
  destruct (uc_bits_cases u) as [B|[B|B]]; rewrite B in S; cbn in S; rewrite B.
  - apply (casecmp_word_spec c u true); [exact LW|cbn; lia|rewrite S; cbn; lia|discriminate].
  - cbn [firstn].
    destruct (casecmp_word_spec c u false (y0 :: y1 :: y2 :: y3 :: y4 :: p) [a; b; d; e]) as (r & -> & R);
      [repeat constructor; lia|cbn; lia|rewrite S; cbn; lia|intros _; rewrite S; reflexivity|].
    cbn [bind]. apply LAST. exact R.
  - cbn [firstn skipn].
    destruct (casecmp_word_spec c u false (y0 :: y1 :: y2 :: y3 :: y4 :: p) [a; b]) as (r & -> & R);
      [repeat constructor; lia|cbn; lia|rewrite S; cbn; lia|intros _; rewrite S; reflexivity|].
    cbn [bind]. rewrite advance_Ok by (cbn; lia). cbn [skipn bind].
    destruct (casecmp_word_spec c u false (y2 :: y3 :: y4 :: p) [d; e]) as (r2 & E2 & R2);
      [repeat constructor; lia|cbn; lia|rewrite S; cbn; lia|intros _; rewrite S; reflexivity|].
    cbn [length firstn map] in R, R2.
    destruct r; [|apply (LAST false); split; [discriminate|]; intros Q; injection Q as Q1 Q2 _ _; apply R; rewrite Q1, Q2; reflexivity].
    rewrite E2. cbn [bind]. apply (LAST r2).
    destruct R as [R _]. specialize (R eq_refl). injection R as Q1 Q2.
    rewrite R2. cbn [map]. rewrite Q1, Q2. split; intros Q; injection Q as Q3 Q4; rewrite Q3, Q4; reflexivity.
Qed.

(** ** NaN payload *)

Lemma nan_payload_some s r : nan_payload s = Some r ->
  exists l, Forall (fun ch => nchar ch = true) l /\ s = l ++ 41 :: r.
Proof.
  revert r. induction s as [|ch s IH]; intros r H; [discriminate|]. cbn [nan_payload] in H.
  destruct (Z.eqb_spec ch 41) as [->|N].
  - injection H as ->. exists []. split; [constructor|reflexivity].
  - change (((97 <=? ch) && (ch <=? 122)) || ((65 <=? ch) && (ch <=? 90)) || ((48 <=? ch) && (ch <=? 57)) || (ch =? 95)) with (nchar ch) in H.
    destruct (nchar ch) eqn:C; [|discriminate]. destruct (IH r H) as (l & A & ->). exists (ch :: l). split; [constructor; assumption|reflexivity].
Qed.

Lemma nan_payload_none s : nan_payload s = None ->
  forall l r, Forall (fun ch => nchar ch = true) l -> s <> l ++ 41 :: r.
Proof.
  induction s as [|ch s IH]; intros H l r A E; [destruct l; discriminate|]. cbn [nan_payload] in H.
  destruct l as [|y l]; cbn [app] in E; injection E as E1 E2; subst ch.
  - cbn in H. discriminate.
  - inversion A as [|? ? Ay Al]; subst.
    assert (N : y <> 41) by (intros ->; discriminate Ay). apply Z.eqb_neq in N. rewrite N in H.
    change (((97 <=? y) && (y <=? 122)) || ((65 <=? y) && (y <=? 90)) || ((48 <=? y) && (y <=? 57)) || (y =? 95)) with (nchar y) in H.
    rewrite Ay in H. eapply IH; [exact H|exact Al|reflexivity].
Qed.

Lemma payload_code s :
  payload s (match s with
             | ch :: q4 => if ch =? 40 then match nan_payload q4 with Some r => r | None => s end else s
             | [] => s end).
Proof.
  destruct s as [|ch q]; [apply payload_none; intros; discriminate|].
  destruct (Z.eqb_spec ch 40) as [->|N].
  - destruct (nan_payload q) as [r|] eqn:E.
    + destruct (nan_payload_some _ _ E) as (l & A & ->). apply payload_some. exact A.
    + apply payload_none. intros l r A Q. injection Q as Q. exact (nan_payload_none q E l r A Q).
  - apply payload_none. intros l r A Q. congruence.
Qed.

Lemma payload_unique s r1 r2 : payload s r1 -> payload s r2 -> r1 = r2.
Proof.
  intros H1 H2. destruct H1 as [l r A|s N].
  - inversion H2 as [l' r' A' E|s' N']; subst; [|exfalso; exact (N' _ _ A eq_refl)].
    rename E into E.
    clear H2. revert l' A' E. induction A as [|x l Hx Hl IH]; intros [|y l'] A' E; cbn in E; injection E as E.
    + congruence.
    + subst y. inversion A'; subst. discriminate.
    + subst x. discriminate.
    + inversion A'; subst. eapply IH; eassumption.
  - inversion H2; subst; [exfalso; eapply N; [eassumption|reflexivity]|reflexivity].
Qed.

Lemma special_sign_unique b s n1 s1 n2 s2 : special_sign b s n1 s1 -> special_sign b s n2 s2 -> n1 = n2 /\ s1 = s2.
Proof. intros H1 H2. inversion H1; subst; inversion H2; subst; auto; cbn in *; exfalso; tauto. Qed.

Lemma special_sign_code (b : bool) ch s :
  special_sign b (ch :: s) (ch =? 45) (if (ch =? 45) || (b && (ch =? 43)) then s else ch :: s).
Proof.
  destruct (Z.eqb_spec ch 45) as [->|N]; cbn [orb]; [constructor|].
  destruct (Z.eqb_spec ch 43) as [->|N2]; rewrite ?andb_true_r, ?andb_false_r.
  - destruct b; [constructor; reflexivity|]. apply ssign_none. cbn. intuition congruence.
  - apply ssign_none. cbn. tauto.
Qed.

Lemma nan_not_inf s r1 r2 : same_letters word_nan s r1 -> same_letters word_inf s r2 -> False.
Proof. intros H1 H2. inversion H1; subst. inversion H2; subst. lia. Qed.

Lemma special_unique b s n1 k1 r1 n2 k2 r2 :
  special b s n1 k1 r1 -> special b s n2 k2 r2 -> n1 = n2 /\ k1 = k2 /\ r1 = r2.
Proof.
  intros H1 H2. inversion H1; subst; inversion H2; subst;
  repeat match goal with
  | A : special_sign b ?s ?m ?x, B : special_sign b ?s ?n ?y |- _ =>
      let E := fresh in destruct (special_sign_unique _ _ _ _ _ _ A B) as [E ?]; subst x; try subst m; try subst n; clear A
  | A : same_letters ?w ?s ?x, B : same_letters ?w ?s ?y |- _ =>
      assert (x = y) by (eapply same_letters_unique; eassumption); subst x; clear A
  | A : payload ?s ?x, B : payload ?s ?y |- _ =>
      assert (x = y) by (eapply payload_unique; eassumption); subst x; clear A
  end; auto; try (exfalso; eapply nan_not_inf; eassumption); try (exfalso; firstorder; fail).
Qed.

(** ** parse_infnan *)

Lemma inf_bits t : infinity_bits t = infinity (format_of t).
Proof. destruct t; vm_compute; reflexivity. Qed.

Lemma nan_bits t : quiet_nan_bits t = infinity (format_of t) + 2 ^ (frac_bits (format_of t) - 1).
Proof. destruct t; vm_compute; reflexivity. Qed.

(** The code of a special value. *)
Definition special_code (t : ftype) (k : special_kind) : Z :=
  match k with Inf => infinity (format_of t)
             | Nan => infinity (format_of t) + 2 ^ (frac_bits (format_of t) - 1) end.

Lemma special_neg t k (neg : bool) :
  (if neg then fp_neg t (special_code t k) else special_code t k) = with_sign (format_of t) neg (special_code t k).
Proof. destruct t, k, neg; vm_compute; reflexivity. Qed.

Lemma letters_nan : letters word_nan. Proof. repeat constructor; lia. Qed.
Lemma letters_inf : letters word_inf. Proof. repeat constructor; lia. Qed.
Lemma letters_inity : letters word_inity. Proof. repeat constructor; lia. Qed.

Definition no_special b s := forall neg k rest, ~ special b s neg k rest.

Lemma parse_infnan_spec c u t s fmt :
  let b := flag fmt f_allow_leading_plus in
  Forall (okc u) s -> s <> [] ->
  (exists neg k rest, special b s neg k rest /\
     parse_infnan c u t s fmt =
       Ok {| r_ptr := rest; r_ec := Success; r_value := Some (with_sign (format_of t) neg (special_code t k)) |}) \/
  (no_special b s /\ parse_infnan c u t s fmt = Ok {| r_ptr := s; r_ec := InvalidArgument; r_value := None |}).
Proof.
  intros b OK NE. destruct s as [|ch s]; [congruence|]. unfold parse_infnan. cbn [deref bind tl]. fold b.
  pose proof (special_sign_code b ch s) as SS.
  assert (OKQ : Forall (okc u) (if (ch =? 45) || (b && (ch =? 43)) then s else ch :: s)).
  { inversion OK; subst. destruct ((ch =? 45) || (b && (ch =? 43))); assumption. }
  set (q := if (ch =? 45) || (b && (ch =? 43)) then s else ch :: s) in *. clearbody q.
  set (neg := ch =? 45) in *. clearbody neg. set (S0 := ch :: s) in *. clearbody S0. clear ch s OK NE.
  assert (NO : (forall r, ~ same_letters word_nan q r) -> (forall r, ~ same_letters word_inf q r) -> no_special b S0).
  { intros N1 N2 n k rest H. inversion H; subst;
      match goal with A : special_sign _ _ _ ?x |- _ => destruct (special_sign_unique _ _ _ _ _ _ SS A); subst x end;
      first [eapply N1; eassumption | eapply N2; eassumption]. }
  unfold remaining. destruct (Z.leb_spec 3 (Z.of_nat (length q))) as [L|L].
  2:{ right. split; [|reflexivity]. apply NO; intros r H; apply same_letters_length in H; cbn [length word_nan word_inf] in H; lia. }
  assert (L3 : (3 <= length q)%nat) by lia.
  destruct (strncasecmp3_spec c u q word_nan [] letters_nan eq_refl OKQ L3) as (b1 & E1 & B1).
  change (word_nan ++ []) with str_const_nan in E1. rewrite E1. cbn [bind]. clear E1.
  destruct b1.
  - rewrite advance_Ok by exact L3. cbn [bind]. left.
    assert (SL : same_letters word_nan q (skipn 3 q)).
    { apply (same_letters_iff u _ letters_nan); [exact OKQ|exact L3|]. split; [apply B1; reflexivity|reflexivity]. }
    pose proof (payload_code (skipn 3 q)) as PL.
    exists neg, Nan. eexists. split; [eapply special_nan; eassumption|].
    do 2 f_equal. f_equal. rewrite <- special_neg. cbn [special_code]. rewrite nan_bits. reflexivity.
  - assert (N1 : forall r, ~ same_letters word_nan q r).
    { intros r H. apply (same_letters_iff u _ letters_nan) in H; [|exact OKQ|exact L3]. destruct H as [H _]. apply B1 in H. discriminate. }
    destruct (strncasecmp3_spec c u q word_inf word_inity letters_inf eq_refl OKQ L3) as (b2 & E2 & B2).
    change (word_inf ++ word_inity) with str_const_inf in E2. rewrite E2. cbn [bind]. clear E2.
    destruct b2.
    + rewrite advance_Ok by exact L3. cbn [bind]. left.
      assert (SL : same_letters word_inf q (skipn 3 q)).
      { apply (same_letters_iff u _ letters_inf); [exact OKQ|exact L3|]. split; [apply B2; reflexivity|reflexivity]. }
      change (skipn 3 str_const_inf) with word_inity.
      assert (OK3 : Forall (okc u) (skipn 3 q)) by (apply Forall_skipn; exact OKQ).
      assert (VAL : forall rest, special b S0 neg Inf rest -> exists neg0 k rest0, special b S0 neg0 k rest0 /\
         Ok {| r_ptr := rest; r_ec := Success; r_value := Some (if neg then fp_neg t (infinity_bits t) else infinity_bits t) |} =
         Ok {| r_ptr := rest0; r_ec := Success; r_value := Some (with_sign (format_of t) neg0 (special_code t k)) |}).
      { intros rest H. exists neg, Inf, rest. split; [exact H|]. do 2 f_equal. f_equal. rewrite <- special_neg. cbn [special_code]. rewrite inf_bits. reflexivity. }
      destruct (Z.leb_spec 8 (Z.of_nat (length q))) as [L8|L8].
      * assert (LS : (5 <= length (skipn 3 q))%nat) by (rewrite skipn_length; lia).
        destruct (strncasecmp5_spec c u (skipn 3 q) word_inity letters_inity eq_refl OK3 LS) as (b3 & -> & B3). cbn [bind].
        destruct b3.
        -- rewrite advance_Ok by lia. cbn [bind]. apply VAL. eapply special_infinity; [exact SS|exact SL|].
           apply (same_letters_iff u _ letters_inity); [exact OK3|exact LS|]. split; [apply B3; reflexivity|].
           cbn [length word_inity]. destruct q as [|? [|? [|? q]]]; reflexivity.
        -- cbn [bind]. apply VAL. eapply special_inf; [exact SS|exact SL|]. intros r H.
           apply (same_letters_iff u _ letters_inity) in H; [|exact OK3|exact LS]. destruct H as [H _]. apply B3 in H. discriminate.
      * cbn [bind]. apply VAL. eapply special_inf; [exact SS|exact SL|]. intros r H.
        apply same_letters_length in H. rewrite skipn_length in H. cbn [length word_inity] in H. lia.
    + right. split; [|reflexivity]. apply NO; [exact N1|]. intros r H.
      apply (same_letters_iff u _ letters_inf) in H; [|exact OKQ|exact L3]. destruct H as [H _]. apply B2 in H. discriminate.
Qed.

(** ** White space *)

Lemma space_lut_spec : forall k, 0 <= k < 256 -> nth_res Tables.space_lut k = Ok (if space k then 1 else 0).
Proof.
  assert (T : forallb (fun k => match nth_res Tables.space_lut k with Ok v => v =? (if space k then 1 else 0) | UB => false end)
     (map Z.of_nat (seq 0 256)) = true) by (vm_compute; reflexivity).
  intros k Hk. rewrite forallb_forall in T. specialize (T k).
  assert (I : In k (map Z.of_nat (seq 0 256))) by (apply in_map_iff; exists (Z.to_nat k); split; [lia|apply in_seq; lia]).
  specialize (T I). destruct (nth_res Tables.space_lut k); [|discriminate]. apply Z.eqb_eq in T. rewrite T. reflexivity.
Qed.

(** Code units the white-space test classifies correctly: all but negative
    values congruent to a white-space character modulo 256. *)
Definition ws_ok (ch : Z) : Prop := ch < 0 -> space (ch mod 256) = false.

Lemma is_space_spec ch : ws_ok ch -> is_space ch = Ok (space ch).
Proof.
  intros W. unfold is_space. destruct (Z.ltb_spec ch 256) as [L|L].
  - change (u8 ch) with (ch mod 256). rewrite space_lut_spec by (apply Z.mod_pos_bound; lia). cbn [bind].
    destruct (Z_lt_ge_dec ch 0) as [N|N].
    + rewrite (W N). replace (space ch) with false; [reflexivity|]. unfold space. symmetry.
      destruct (Z.leb_spec 9 ch), (Z.leb_spec ch 13), (Z.eqb_spec ch 32); cbn; try lia; reflexivity.
    + rewrite Z.mod_small by lia. destruct (space ch); reflexivity.
  - f_equal. unfold space. destruct (Z.leb_spec 9 ch), (Z.leb_spec ch 13), (Z.eqb_spec ch 32); cbn; try lia; reflexivity.
Qed.

Lemma ws_ok_type u ch : okc u ch -> u <> Wchar_s32 -> ws_ok ch.
Proof.
  intros H N L. apply okc_bounds in H. destruct u; try lia; [|congruence].
  rewrite <- (Z.mod_add ch 1 256), Z.mod_small by lia. unfold space.
  destruct (Z.leb_spec 9 (ch + 1 * 256)), (Z.leb_spec (ch + 1 * 256) 13), (Z.eqb_spec (ch + 1 * 256) 32); cbn; try lia; reflexivity.
Qed.

Lemma skip_ws_spec s : Forall ws_ok s -> exists s', skip_ws s = Ok s' /\ without_spaces s s'.
Proof.
  induction 1 as [|ch s H Hs IH]; [exists []; split; [reflexivity|]; exists []; repeat split; constructor|].
  cbn [skip_ws]. rewrite is_space_spec by exact H. cbn [bind]. destruct (space ch) eqn:E.
  - destruct IH as (s' & -> & ws & -> & A & N). exists s'. split; [reflexivity|]. exists (ch :: ws).
    repeat split; [constructor; assumption|exact N].
  - exists (ch :: s). split; [reflexivity|]. exists []. repeat split; [constructor|]. cbn. congruence.
Qed.

Lemma without_spaces_unique s a b : without_spaces s a -> without_spaces s b -> a = b.
Proof.
  intros (w1 & E1 & A1 & N1) (w2 & E2 & A2 & N2). subst s. revert w2 E2 A2.
  induction A1 as [|x w1 Hx Hw IH]; intros [|y w2] E2 A2; cbn [app] in E2.
  - exact E2.
  - subst a. inversion A2; subst. cbn in N1. congruence.
  - subst b. cbn in N2. congruence.
  - injection E2 as _ E2. inversion A2; subst. eapply IH; eassumption.
Qed.

Lemma without_spaces_ok (P : Z -> Prop) s s' : without_spaces s s' -> Forall P s -> Forall P s' /\ (length s' <= length s)%nat.
Proof. intros (ws & -> & _) H. apply Forall_app in H. rewrite app_length. split; [apply H|lia]. Qed.
