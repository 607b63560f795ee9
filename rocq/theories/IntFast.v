(** Integer parsing: the one-byte fast paths for uint8_t and uint16_t. *)
From Verif Require Import Machine Config Tables Chars ParseNumber FromChars Ints WordLemmas SpecGrammar Swar Scan
  SpecApi ParseSpec Special SpecInt IntSpec.
Open Scope Z_scope.

(** ** Leading digits of a word *)
Definition marks (l : list Z) : Z :=
  Z.land (Z.lor (le_word 8 l + rep (length l) 70) (le_word 8 l - rep (length l) 48)) (rep (length l) 128).

Lemma lor_byte a b : 0 <= a < 256 -> 0 <= b < 256 -> 0 <= Z.lor a b < 2 ^ 8.
Proof.
  intros A B. assert (N : 0 <= Z.lor a b) by (apply Z.lor_nonneg; lia). split; [exact N|].
  destruct (Z.eq_dec (Z.lor a b) 0) as [->|NZ]; [lia|].
  apply Z.log2_lt_pow2; [lia|]. rewrite Z.log2_lor by lia. apply Z.max_lub_lt.
  - destruct (Z.eq_dec a 0) as [->|]; [cbn; lia|]. apply Z.log2_lt_pow2; change (2 ^ 8) with 256; lia.
  - destruct (Z.eq_dec b 0) as [->|]; [cbn; lia|]. apply Z.log2_lt_pow2; change (2 ^ 8) with 256; lia.
Qed.

Lemma land128 b : byte b -> Z.land b 128 = 0 \/ Z.land b 128 = 128.
Proof.
  intros B. pose proof (sweep256 (fun b => (Z.land b 128 =? 0) || (Z.land b 128 =? 128)) ltac:(vm_compute; reflexivity) b B) as T.
  cbn beta in T. rewrite orb_true_iff, !Z.eqb_eq in T. exact T.
Qed.

Lemma marks_cons x l : byte x -> Forall byte l ->
  (digit x = true -> marks (x :: l) = marks l * 2 ^ 8) /\
  (digit x = false -> marks (x :: l) mod 256 = 128).
Proof.
  intros Hx Hl. unfold marks. rewrite le_word_cons. cbn [length rep].
  set (W := le_word 8 l) in *. set (n := length l) in *. pose proof (bytes_high x Hx) as BH.
  replace (x + W * 2 ^ 8 + (70 + rep n 70 * 2 ^ 8)) with ((x + 70) mod 256 + ((x + 70) / 256 + (W + rep n 70)) * 2 ^ 8)
    by (pose proof (div_mod_256 (x + 70)); lia).
  replace (x + W * 2 ^ 8 - (48 + rep n 48 * 2 ^ 8)) with ((x - 48) mod 256 + ((x - 48) / 256 + (W - rep n 48)) * 2 ^ 8)
    by (pose proof (div_mod_256 (x - 48)); lia).
  pose proof (Z.mod_pos_bound (x + 70) 256 ltac:(lia)). pose proof (Z.mod_pos_bound (x - 48) 256 ltac:(lia)).
  rewrite lor_split by (try change (2 ^ 8) with 256; lia).
  pose proof (lor_byte _ _ H H0) as LR.
  rewrite land_split by (try change (2 ^ 8) with 256 in *; lia).
  pose proof (land128 (Z.lor ((x + 70) mod 256) ((x - 48) mod 256)) LR) as L128.
  set (lo := Z.land (Z.lor ((x + 70) mod 256) ((x - 48) mod 256)) 128) in *.
  split; intros D.
  - apply digit_true in D as R. apply BH in D. rewrite D.
    rewrite (Z.div_small (x + 70) 256), (Z.div_small (x - 48) 256), !Z.add_0_l by lia. reflexivity.
  - assert (lo = 128) as -> by (destruct L128 as [E|E]; [apply BH in E; congruence|exact E]).
    change (2 ^ 8) with 256. rewrite Z.mod_add by lia. reflexivity.
Qed.

Lemma marks_step y r : 0 <= r ->
  exists h, Z.land y (128 + r * 2 ^ 8) = h + Z.land (y / 256) r * 2 ^ 8 /\ (h = 0 \/ h = 128).
Proof.
  intros R. exists (Z.land (y mod 256) 128). pose proof (Z.mod_pos_bound y 256 ltac:(lia)) as M. split; [|apply land128; exact M].
  transitivity (Z.land (y mod 256 + y / 256 * 2 ^ 8) (128 + r * 2 ^ 8)); [f_equal; apply div_mod_256|].
  apply land_split; try change (2 ^ 8) with 256; lia.
Qed.

Lemma marks_values l : length l = 4%nat -> exists h0 h1 h2 h3,
  marks l = h0 + (h1 + (h2 + (h3 + 0 * 2 ^ 8) * 2 ^ 8) * 2 ^ 8) * 2 ^ 8 /\
  (h0 = 0 \/ h0 = 128) /\ (h1 = 0 \/ h1 = 128) /\ (h2 = 0 \/ h2 = 128) /\ (h3 = 0 \/ h3 = 128).
Proof.
  intros L. unfold marks. rewrite L. cbn [rep].
  set (y := Z.lor _ _). clearbody y.
  destruct (marks_step y (128 + (128 + (128 + 0 * 2 ^ 8) * 2 ^ 8) * 2 ^ 8) ltac:(lia)) as (h0 & -> & H0).
  destruct (marks_step (y / 256) (128 + (128 + 0 * 2 ^ 8) * 2 ^ 8) ltac:(lia)) as (h1 & -> & H1).
  destruct (marks_step (y / 256 / 256) (128 + 0 * 2 ^ 8) ltac:(lia)) as (h2 & -> & H2).
  destruct (marks_step (y / 256 / 256 / 256) 0 ltac:(lia)) as (h3 & -> & H3).
  rewrite Z.land_0_r. exists h0, h1, h2, h3. auto.
Qed.

(** The number of leading digits, 0 to 4. *)
Definition lead (l : list Z) : Z :=
  match l with
  | [b0; b1; b2; b3] =>
    if digit b0 then if digit b1 then if digit b2 then if digit b3 then 4 else 3 else 2 else 1 else 0
  | _ => 0
  end.

Lemma ctz_marks c b0 b1 b2 b3 : Forall byte [b0; b1; b2; b3] ->
  (let tz := countr_zero_32 c (marks [b0; b1; b2; b3]) in if tz =? 32 then 4 else Z.shiftr tz 3) = lead [b0; b1; b2; b3].
Proof.
  intros B. inversion_clear B as [|? ? B0 T0]. inversion_clear T0 as [|? ? B1 T1]. inversion_clear T1 as [|? ? B2 T2].
  inversion_clear T2 as [|? ? B3 T3].
  destruct (marks_cons b0 [b1; b2; b3] B0 ltac:(auto)) as (Y0 & N0).
  destruct (marks_cons b1 [b2; b3] B1 ltac:(auto)) as (Y1 & N1).
  destruct (marks_cons b2 [b3] B2 ltac:(auto)) as (Y2 & N2).
  destruct (marks_cons b3 [] B3 ltac:(auto)) as (Y3 & N3).
  assert (M0 : marks [] = 0) by reflexivity.
  destruct (marks_values [b0; b1; b2; b3] eq_refl) as (h0 & h1 & h2 & h3 & E & H0 & H1 & H2 & H3).
  rewrite E in *. unfold lead. clear E.
  assert (R : forall h0 h1 h2 h3, (h0 = 0 \/ h0 = 128) -> (h1 = 0 \/ h1 = 128) -> (h2 = 0 \/ h2 = 128) -> (h3 = 0 \/ h3 = 128) ->
    (let tz := countr_zero_32 c (h0 + (h1 + (h2 + (h3 + 0 * 2 ^ 8) * 2 ^ 8) * 2 ^ 8) * 2 ^ 8) in if tz =? 32 then 4 else Z.shiftr tz 3)
    = if h0 =? 0 then if h1 =? 0 then if h2 =? 0 then if h3 =? 0 then 4 else 3 else 2 else 1 else 0).
  { clear. intros h0 h1 h2 h3 [-> | ->] [-> | ->] [-> | ->] [-> | ->]; unfold countr_zero_32;
      destruct (in_constexpr c || negb (clz_builtin c)); vm_compute; reflexivity. }
  etransitivity; [exact (R h0 h1 h2 h3 H0 H1 H2 H3)|]. clear R.
  change (2 ^ 8) with 256 in *.
  destruct (digit b0); [specialize (Y0 eq_refl); clear N0|specialize (N0 eq_refl); rewrite Z.mod_add in N0 by lia;
    destruct H0 as [-> | ->]; [discriminate N0|reflexivity]].
  assert (h0 = 0) as -> by lia. cbn [Z.eqb].
  assert (E1 : marks [b1; b2; b3] = h1 + (h2 + (h3 + 0 * 256) * 256) * 256) by lia. rewrite E1 in *.
  destruct (digit b1); [specialize (Y1 eq_refl); clear N1|specialize (N1 eq_refl); rewrite Z.mod_add in N1 by lia;
    destruct H1 as [-> | ->]; [discriminate N1|reflexivity]].
  assert (h1 = 0) as -> by lia. cbn [Z.eqb].
  assert (E2 : marks [b2; b3] = h2 + (h3 + 0 * 256) * 256) by lia. rewrite E2 in *.
  destruct (digit b2); [specialize (Y2 eq_refl); clear N2|specialize (N2 eq_refl); rewrite Z.mod_add in N2 by lia;
    destruct H2 as [-> | ->]; [discriminate N2|reflexivity]].
  assert (h2 = 0) as -> by lia. cbn [Z.eqb].
  assert (E3 : marks [b3] = h3) by lia. rewrite E3 in *.
  destruct (digit b3); [specialize (Y3 eq_refl); rewrite M0 in Y3|specialize (N3 eq_refl)].
  - assert (h3 = 0) as -> by lia. reflexivity.
  - destruct H3 as [-> | ->]; [discriminate N3|reflexivity].
Qed.

(** ** The loaded word *)
Definition filler (x : Z) : Prop := x = 0 \/ x = 255.

Lemma u8_word c u p : uc_size u = 1 -> p <> [] ->
  exists f, u8_digits c u p = Ok (le_word 8 (map u8 (firstn 4 p) ++ f)) /\
    length (map u8 (firstn 4 p) ++ f) = 4%nat /\ Forall filler f.
Proof.
  intros U NE. assert (U8 : uc_bits u = 8) by (destruct u; cbn in U |- *; congruence).
  unfold u8_digits.
  assert (MW : forall l, (length l <= 4)%nat ->
    (if big_endian c then byteswap_32 (mem_word c u 4 l) else mem_word c u 4 l) = le_word 8 (map u8 l ++ repeat 0 (4 - length l))).
  { intros l L. unfold mem_word. rewrite U8, U. change (Z.to_nat (4 / 1)) with 4%nat. change (fun x => x mod 2 ^ 8) with u8.
    destruct (big_endian c); [|reflexivity].
    assert (B : Forall byte (map u8 l ++ repeat 0 (4 - length l))).
    { apply Forall_app. split; [apply bytes_map|]. apply Forall_forall. intros x I. apply repeat_spec in I. subst x. unfold byte. lia. }
    assert (L4 : length (map u8 l ++ repeat 0 (4 - length l)) = 4%nat) by (rewrite app_length, map_length, repeat_length; lia).
    destruct (list_len4 _ L4) as (b0 & b1 & b2 & b3 & EL). rewrite EL in *. cbn [rev app].
    repeat match goal with H : Forall _ (_ :: _) |- _ => inversion H; clear H; subst end.
    apply byteswap32_le; assumption. }
  destruct (in_constexpr c).
  - exists (repeat 0 (4 - length (firstn 4 p))). rewrite MW by apply firstn_le_length. split; [reflexivity|].
    split; [rewrite app_length, map_length, repeat_length; pose proof (firstn_le_length 4 p); lia|].
    apply Forall_forall. intros x I. apply repeat_spec in I. left. exact I.
  - destruct (Z.leb_spec 4 (remaining p)) as [L|L]; unfold remaining in L.
    + rewrite take_Ok by lia. cbn [bind]. rewrite MW by apply firstn_le_length.
      assert (length (firstn 4 p) = 4%nat) as -> by (rewrite firstn_length; lia). exists [].
      split; [reflexivity|]. split; [|constructor]. rewrite app_nil_r, map_length, firstn_length. lia.
    + assert (OR : forall b0 b1 b2, byte b0 -> byte b1 -> byte b2 ->
        Z.lor (Z.lor (Z.lor b0 (u32 (Z.shiftl b1 8))) (u32 (Z.shiftl b2 16))) (u32 (Z.shiftl 255 24)) = le_word 8 [b0; b1; b2; 255]).
      { clear. unfold byte. intros b0 b1 b2 B0 B1 B2. rewrite !Z.shiftl_mul_pow2 by lia. rewrite !u32_small by lia.
        rewrite (lor_add_disjoint b0 b1 8) by lia. rewrite (lor_add_disjoint _ b2 16) by lia. rewrite (lor_add_disjoint _ 255 24) by lia.
        cbn [le_word]. lia. }
      pose proof u8_range as UR. change (2 ^ 8) with 256 in UR.
      destruct p as [|p0 [|p1 [|p2 [|p3 p]]]]; [contradiction| | | |cbn [length] in L; lia].
      * exists [255; 255; 255]. split; [transitivity (Ok (le_word 8 [u8 p0; 255; 255; 255])); [|reflexivity];
          rewrite <- (OR (u8 p0) 255 255) by (unfold byte; try apply UR; lia); reflexivity|].
        split; [reflexivity|]. repeat constructor; right; reflexivity.
      * exists [255; 255]. split; [transitivity (Ok (le_word 8 [u8 p0; u8 p1; 255; 255])); [|reflexivity];
          rewrite <- (OR (u8 p0) (u8 p1) 255) by (unfold byte; try apply UR; lia); reflexivity|].
        split; [reflexivity|]. repeat constructor; right; reflexivity.
      * exists [255]. split; [transitivity (Ok (le_word 8 [u8 p0; u8 p1; u8 p2; 255])); [|reflexivity];
          rewrite <- (OR (u8 p0) (u8 p1) (u8 p2)) by (unfold byte; try apply UR; lia); reflexivity|].
        split; [reflexivity|]. repeat constructor; right; reflexivity.
Qed.

(** ** Up to three digits *)
Lemma mod_lxor a b k : 0 <= k -> Z.lxor a b mod 2 ^ k = Z.lxor (a mod 2 ^ k) (b mod 2 ^ k).
Proof.
  intros K. rewrite <- !Z.land_ones by lia. apply Z.bits_inj'. intros n Hn. rewrite !Z.lxor_spec, !Z.land_spec, !Z.lxor_spec.
  destruct (Z.testbit a n), (Z.testbit b n), (Z.testbit (Z.ones k) n); reflexivity.
Qed.

Lemma le_word_app a b : le_word 8 (a ++ b) = le_word 8 a + le_word 8 b * 2 ^ (8 * Z.of_nat (length a)).
Proof.
  induction a as [|x a IH]; [cbn [app le_word length]; change (2 ^ (8 * Z.of_nat 0)) with 1; lia|].
  cbn [app]. rewrite !le_word_cons, IH. cbn [length]. rewrite Nat2Z.inj_succ.
  replace (8 * Z.succ (Z.of_nat (length a))) with (8 * Z.of_nat (length a) + 8) by lia. rewrite Z.pow_add_r by lia. lia.
Qed.

Definition tail_value (n : nat) (a : list Z) : option Z :=
  let digits := Z.lxor (le_word 8 a) (rep n 48) * 2 ^ ((4 - Z.of_nat n) * 8) in
  let check := Z.lor (Z.lor (Z.land (Z.shiftr digits 24) 0xff) (Z.land (Z.shiftr digits 8) 0xff00))
                         (Z.land (u32 (Z.shiftl digits 8)) 0xff0000) in
  if 0x00020505 <? check then None else Some (u8 (Z.shiftr (u32 (0x640a01 * digits)) 24)).

Definition ten : list Z := map Z.of_nat (seq 48 10).
Lemma in_ten x : digit x = true -> In x ten.
Proof. intros D. apply digit_true in D. apply in_map_iff. exists (Z.to_nat x). split; [lia|apply in_seq; lia]. Qed.

Definition tail_good (a : list Z) : bool :=
  match tail_value (length a) a with
  | Some v => (v =? digits_value a) && (digits_value a <=? 255)
  | None => 255 <? digits_value a
  end.
Lemma tail_spec a : all_digits a -> (1 <= length a <= 3)%nat ->
  tail_value (length a) a = if digits_value a <=? 255 then Some (digits_value a) else None.
Proof.
  intros A L.
  assert (G : tail_good a = true).
  { destruct a as [|x [|y [|z [|? ?]]]]; cbn [length] in L; try lia;
      repeat match goal with H : all_digits (_ :: _) |- _ => apply Forall_cons_iff in H; destruct H as [? H]
        | H : Forall _ (_ :: _) |- _ => apply Forall_cons_iff in H; destruct H as [? H] end.
    - assert (T : forallb (fun x => tail_good [x]) ten = true) by (vm_compute; reflexivity).
      rewrite forallb_forall in T. apply T. apply in_ten. assumption.
    - assert (T : forallb (fun x => forallb (fun y => tail_good [x; y]) ten) ten = true) by (vm_compute; reflexivity).
      rewrite forallb_forall in T. specialize (T x (in_ten x H)). rewrite forallb_forall in T. apply T. apply in_ten. assumption.
    - assert (T : forallb (fun x => forallb (fun y => forallb (fun z => tail_good [x; y; z]) ten) ten) ten = true) by (vm_compute; reflexivity).
      rewrite forallb_forall in T. specialize (T x (in_ten x H)). rewrite forallb_forall in T. specialize (T y (in_ten y H0)).
      rewrite forallb_forall in T. apply T. apply in_ten. assumption. }
  unfold tail_good in G. destruct (tail_value (length a) a) as [v|].
  - apply andb_true_iff in G. destruct G as (G1 & G2). apply Z.eqb_eq in G1. rewrite G2, G1. reflexivity.
  - destruct (Z.leb_spec (digits_value a) 255); [apply Z.ltb_lt in G; lia|reflexivity].
Qed.

Lemma shifted_word a b : Forall byte a -> length (a ++ b) = 4%nat -> (1 <= length a)%nat ->
  shl 32 (Z.lxor (le_word 8 (a ++ b)) 0x30303030) ((4 - Z.of_nat (length a)) * 8)
  = Ok (Z.lxor (le_word 8 a) (rep (length a) 48) * 2 ^ ((4 - Z.of_nat (length a)) * 8)).
Proof.
  intros BA L4 L1. rewrite app_length in L4. rewrite shl_Ok by lia. f_equal.
  set (n := Z.of_nat (length a)) in *.
  replace (2 ^ 32) with (2 ^ (8 * n) * 2 ^ ((4 - n) * 8)) by (rewrite <- Z.pow_add_r by lia; f_equal; lia).
  rewrite Z.mul_mod_distr_r by lia. f_equal. rewrite mod_lxor by lia. f_equal.
  - rewrite le_word_app. fold n. rewrite Z.mod_add by lia. apply Z.mod_small. apply le_word_range. exact BA.
  - clear BA. assert (C : length a = 1%nat \/ length a = 2%nat \/ length a = 3%nat \/ length a = 4%nat) by lia.
    unfold n. destruct C as [-> | [-> | [-> | ->]]]; reflexivity.
Qed.

Lemma skip_plain_spec s ds rest : run s ds rest -> skip_plain_digits s = rest.
Proof.
  revert s. induction ds as [|x ds IH]; intros s (E & A & N); subst s.
  - cbn [app]. destruct rest as [|ch rest]; [reflexivity|]. apply head_notdigit, digit_false in N. cbn [skip_plain_digits].
    destruct (Z.ltb_spec ch 48), (Z.ltb_spec 57 ch); try reflexivity. lia.
  - inversion A; subst. cbn [app skip_plain_digits]. apply digit_true in H1.
    destruct (Z.ltb_spec x 48), (Z.ltb_spec 57 x); try lia. cbn [orb]. apply IH. repeat split; assumption.
Qed.

(** The leading digits of the word are those of the text. *)
Lemma lead_app_filler a b f : all_digits a -> not_at_digit b -> Forall filler f -> length (a ++ b ++ f) = 4%nat ->
  lead (a ++ b ++ f) = Z.of_nat (length a).
Proof.
  intros A B F L.
  assert (NF : forall x l, Forall filler (x :: l) -> digit x = false).
  { intros x l H. inversion H as [|? ? [-> | ->] _]; reflexivity. }
  assert (NX : match b ++ f with [] => True | x :: _ => digit x = false end).
  { destruct b as [|y b]; [|apply head_notdigit in B; exact B]. cbn [app]. destruct f as [|y f]; [exact I|apply (NF y f F)]. }
  remember (b ++ f) as r. clear Heqr B F NF.
  destruct a as [|a0 [|a1 [|a2 [|a3 [|? ?]]]]]; destruct r as [|r0 [|r1 [|r2 [|r3 [|? ?]]]]]; cbn [app length] in L; try lia;
    repeat match goal with H : all_digits (_ :: _) |- _ => apply Forall_cons_iff in H; destruct H as [? H]
        | H : Forall _ (_ :: _) |- _ => apply Forall_cons_iff in H; destruct H as [? H] end; cbn [app lead length];
    repeat match goal with H : digit _ = _ |- _ => rewrite H; clear H end; reflexivity.
Qed.

Lemma okc_unit8 u ch : uc_size u = 1 -> code_unit u ch -> okc u ch.
Proof. intros U C. split; [exact C|]. intros ->. discriminate U. Qed.

Lemma run_ten s ds rest : base_run 10 s ds rest <-> run s ds rest.
Proof.
  unfold base_run, run, not_at_digit. rewrite base_digits_ten. split; intros (E & A & N); repeat split; try assumption.
  - destruct rest as [|ch r]; [exact I|]. cbn in N |- *. rewrite base_digit_ten in N. exact N.
  - destruct rest as [|ch r]; [exact I|]. cbn in N |- *. rewrite base_digit_ten. exact N.
Qed.

Lemma some_inj (x y : Z) : Some x = Some y -> x = y.
Proof. congruence. Qed.

Lemma u8_spec c u hz first p ds rest : uc_size u = 1 -> Forall (code_unit u) p -> run p ds rest -> no_leading_zero ds ->
  let V := base_value 10 ds in
  let r := parse_u8 c u hz first p in
  (ds = [] /\ r = Ok (no_digits hz first rest)) \/
  (ds <> [] /\ ((V <= 255 /\ r = Ok (success rest V)) \/ (255 < V /\ r = Ok (out_of_range rest)))).
Proof.
  intros U C R NZ V r. pose proof R as (E & A & N). unfold V. rewrite (base_value_ten ds A). clear V.
  assert (U8 : uc_bits u = 8) by (destruct u; cbn in U |- *; congruence).
  unfold r, parse_u8. clear r.
  destruct (Z.eqb_spec (remaining p) 0) as [Z0|NZ0].
  { unfold remaining in Z0. destruct p as [|? ?]; [|cbn [length] in Z0; lia]. symmetry in E. apply app_eq_nil in E. destruct E as [-> ->].
    left. split; reflexivity. }
  assert (NP : p <> []) by (intros ->; apply NZ0; reflexivity).
  destruct (u8_word c u p U NP) as (f & -> & L4 & F). cbn [bind].
  assert (BY : Forall byte (map u8 (firstn 4 p) ++ f)).
  { apply Forall_app. split; [apply bytes_map|]. eapply Forall_impl; [|exact F]. intros x [-> | ->]; unfold byte; lia. }
  assert (LEAD : exists a b, map u8 (firstn 4 p) ++ f = a ++ b /\ lead (map u8 (firstn 4 p) ++ f) = Z.of_nat (length a) /\
     all_digits a /\ ((4 <= length ds)%nat /\ length a = 4%nat \/ a = ds /\ (length ds <= 3)%nat)).
  { destruct (le_lt_dec 4 (length ds)) as [G|S].
    - exists (firstn 4 ds), []. rewrite app_nil_r.
      assert (E4 : firstn 4 p = firstn 4 ds) by (rewrite E, firstn_app; replace (4 - length ds)%nat with 0%nat by lia; apply app_nil_r).
      assert (A4 : all_digits (firstn 4 ds)) by (apply Forall_firstn; exact A).
      rewrite E4 in *. rewrite map_u8_digits in * by exact A4.
      assert (L : length (firstn 4 ds) = 4%nat) by (rewrite firstn_length; lia).
      assert (f = []) as -> by (rewrite app_length, L in L4; destruct f; [reflexivity|cbn [length] in L4; lia]).
      rewrite app_nil_r. split; [reflexivity|]. split; [|split; [exact A4|left; auto]].
      pose proof (lead_app_filler (firstn 4 ds) [] [] A4 I ltac:(constructor)) as LA. cbn [app] in LA. rewrite app_nil_r in LA. exact (LA L).
    - exists ds, (map u8 (firstn (4 - length ds) rest) ++ f).
      assert (E4 : map u8 (firstn 4 p) = ds ++ map u8 (firstn (4 - length ds) rest)).
      { rewrite E, firstn_app, map_app. f_equal. rewrite firstn_all2 by lia. apply map_u8_digits. exact A. }
      rewrite E4 in *. rewrite <- app_assoc in *. split; [reflexivity|]. split; [|split; [exact A|right; split; [reflexivity|lia]]].
      apply lead_app_filler; try assumption.
      destruct rest as [|ch rest]; [rewrite firstn_nil; exact I|].
      destruct (4 - length ds)%nat as [|m] eqn:EM; [lia|]. cbn [firstn map]. apply head_notdigit in N. cbn.
      rewrite (u8_digit_char u ch U8); [congruence|]. apply okc_unit8; [exact U|].
      rewrite E in C. apply Forall_app in C. destruct C as [_ C]. inversion C. assumption. }
  destruct LEAD as (a & b & EW & LD & AA & CASE).
  assert (MG : Z.land (Z.lor (u32 (le_word 8 (map u8 (firstn 4 p) ++ f) + 0x46464646)) (u32 (le_word 8 (map u8 (firstn 4 p) ++ f) - 0x30303030))) 0x80808080
     = marks (map u8 (firstn 4 p) ++ f)).
  { unfold u32. rewrite land_lor_mod by (vm_compute; intuition discriminate). unfold marks. rewrite L4. reflexivity. }
  rewrite MG. clear MG.
  assert (ND : (if countr_zero_32 c (marks (map u8 (firstn 4 p) ++ f)) =? 32 then 4 else Z.shiftr (countr_zero_32 c (marks (map u8 (firstn 4 p) ++ f))) 3)
     = Z.of_nat (length a)).
  { rewrite <- LD. destruct (list_len4 _ L4) as (b0 & b1 & b2 & b3 & EL). rewrite EL in *. apply (ctz_marks c b0 b1 b2 b3 BY). }
  rewrite ND. clear ND LD. rewrite EW in *. clear EW F.
  assert (LP : (length ds <= length p)%nat) by (rewrite E, app_length; lia).
  assert (CL : (if Z.of_nat (length a) <? remaining p then Z.of_nat (length a) else remaining p) = Z.of_nat (length a)).
  { unfold remaining. destruct (Z.ltb_spec (Z.of_nat (length a)) (Z.of_nat (length p))); [reflexivity|].
    destruct CASE as [(G & L)|(-> & L)]; lia. }
  cbv zeta. rewrite CL. clear CL.
  destruct CASE as [(G & L)|(-> & L)].
  - right. split; [intros ->; cbn [length] in G; lia|]. right. rewrite L. change (Z.of_nat 4) with 4.
    change (4 =? 0) with false. change (3 <? 4) with true. cbn match. change (Z.to_nat 4) with 4%nat.
    rewrite advance_Ok by lia. cbn [bind]. split.
    + destruct ds as [|x ds]; [cbn [length] in G; lia|]. rewrite <- (base_value_ten _ A).
      inversion A as [|? ? A1 A2]; subst.
      pose proof (base_value_lower 10 x ds ltac:(lia) (proj2 (base_digit_ten x) A1) NZ (proj2 (base_digits_ten ds) A2)) as BL.
      assert (10 ^ 3 <= 10 ^ Z.of_nat (length ds)) by (apply Z.pow_le_mono_r; cbn [length] in G; lia). lia.
    + do 2 f_equal. apply (skip_plain_spec _ (skipn 4 ds)). rewrite E, skipn_app. replace (4 - length ds)%nat with 0%nat by lia.
      repeat split; [apply Forall_skipn; exact A|exact N].
  - destruct ds as [|x ds]; [left; split; [reflexivity|]; cbn [app] in E; subst rest; reflexivity|].
    right. split; [discriminate|]. set (d := x :: ds) in *.
    assert (LD : (1 <= length d)%nat) by (unfold d; cbn [length]; lia).
    destruct (Z.eqb_spec (Z.of_nat (length d)) 0); [lia|]. destruct (Z.ltb_spec 3 (Z.of_nat (length d))); [lia|].
    apply Forall_app in BY. rewrite shifted_word by (try assumption; apply BY). cbn [bind].
    rewrite Nat2Z.id. rewrite advance_Ok by lia. cbn [bind].
    assert (SK : skipn (length d) p = rest) by (rewrite E, skipn_app, skipn_all, Nat.sub_diag; reflexivity). rewrite SK.
    pose proof (tail_spec d A ltac:(lia)) as TS. unfold tail_value in TS. cbv zeta in TS.
    destruct (0x00020505 <? _); destruct (Z.leb_spec (digits_value d) 255); try discriminate TS.
    + right. split; [lia|reflexivity].
    + left. split; [lia|]. apply some_inj in TS. rewrite TS. reflexivity.
Qed.

(** ** uint16_t *)
Lemma skip_integer_spec u s ds rest : Forall (okc u) s -> run s ds rest -> skip_integer_digits u s = Ok rest.
Proof.
  revert s. induction ds as [|x ds IH]; intros s C (E & A & N); subst s.
  - cbn [app] in *. destruct rest as [|ch rest]; [reflexivity|]. apply head_notdigit in N. inversion C; subst. cbn [skip_integer_digits].
    rewrite is_integer_spec by assumption. rewrite N. reflexivity.
  - inversion A; subst. cbn [app] in C |- *. inversion C; subst. cbn [skip_integer_digits]. rewrite is_integer_spec by assumption.
    rewrite H1. cbn [bind]. apply IH; [assumption|repeat split; assumption].
Qed.

Lemma u16_spec c u hz first p ds rest : uc_size u = 1 -> Forall (code_unit u) p -> run p ds rest -> no_leading_zero ds ->
  let V := base_value 10 ds in
  let r := parse_u16 c u hz first p in
  r = Ok None \/
  (ds = [] /\ r = Ok (Some (no_digits hz first rest))) \/
  (ds <> [] /\ ((V <= 65535 /\ r = Ok (Some (success rest V))) \/ (65535 < V /\ r = Ok (Some (out_of_range rest))))).
Proof.
  intros U C R NZ V r. pose proof R as (E & A & N). unfold V. rewrite (base_value_ten ds A). clear V.
  assert (U8 : uc_bits u = 8) by (destruct u; cbn in U |- *; congruence).
  assert (CK : Forall (okc u) p) by (eapply Forall_impl; [|exact C]; intros ch; apply okc_unit8; exact U).
  unfold r, parse_u16. clear r.
  destruct (Z.eqb_spec (remaining p) 0) as [Z0|NZ0].
  { unfold remaining in Z0. destruct p as [|? ?]; [|cbn [length] in Z0; lia]. symmetry in E. apply app_eq_nil in E. destruct E as [-> ->].
    right. left. split; reflexivity. }
  destruct (Z.leb_spec 4 (remaining p)) as [L4|L4]; [|left; reflexivity]. unfold remaining in L4.
  rewrite read4_spec by lia. cbn [bind].
  assert (LF : length (firstn 4 p) = 4%nat) by (rewrite firstn_length; lia).
  pose proof (four_digits_spec (map u8 (firstn 4 p)) ltac:(rewrite map_length; exact LF) (bytes_map _)) as FD.
  rewrite (u8_digits_char u) in FD by (try exact U8; apply Forall_firstn; exact CK).
  destruct (is_made_of_four_digits_fast (le_word 8 (map u8 (firstn 4 p)))) eqn:MF; [|left; reflexivity].
  assert (A4 : all_digits (firstn 4 p)) by (apply FD; reflexivity). clear FD.
  right. right. rewrite map_u8_digits by exact A4. rewrite parse_four_list by assumption.
  destruct (base_run_split 10 (firstn 4 p) (skipn 4 p) ds rest) as (d2 & ED & R2).
  { apply base_digits_ten. exact A4. }
  { rewrite firstn_skipn. apply run_ten. exact R. }
  apply run_ten in R2. set (a := firstn 4 p) in *.
  assert (SK : skipn 4 p = d2 ++ rest) by apply R2.
  assert (EP : p = a ++ d2 ++ rest) by (rewrite <- SK; symmetry; apply firstn_skipn).
  split; [rewrite ED; destruct a; [discriminate LF|discriminate]|].
  pose proof (digits_value_range a A4) as VA. rewrite LF in VA. change (10 ^ Z.of_nat 4) with 10000 in VA.
  assert (VL : 1000 <= digits_value a).
  { rewrite ED in NZ, A. destruct a as [|x a']; [discriminate LF|]. cbn [app] in NZ. inversion A4 as [|? ? X1 X2]; subst.
    rewrite <- (base_value_ten _ A4).
    pose proof (base_value_lower 10 x a' ltac:(lia) (proj2 (base_digit_ten x) X1) NZ (proj2 (base_digits_ten a') X2)) as BL.
    injection LF as LF. rewrite LF in BL. exact BL. }
  assert (A2 : all_digits d2) by apply R2. assert (N2 : not_at_digit rest) by apply R2.
  assert (CR : Forall (okc u) (d2 ++ rest)) by (rewrite EP in CK; apply Forall_app in CK; apply CK).
  assert (LP : remaining p = 4 + Z.of_nat (length d2) + Z.of_nat (length rest)).
  { unfold remaining. rewrite EP, !app_length, LF. lia. }
  assert (NTH : forall j x, nth_error (d2 ++ rest) j = Some x -> nth_res p (4 + Z.of_nat j) = Ok x).
  { intros j x H. apply nth_res_Ok; [lia|]. rewrite EP. rewrite nth_error_app2 by lia. rewrite LF. rewrite <- H. f_equal. lia. }
  assert (ADV4 : advance 4 p = Ok (d2 ++ rest)) by (rewrite advance_Ok by lia; rewrite SK; reflexivity).
  assert (DV : digits_value ds = digits_value a * 10 ^ Z.of_nat (length d2) + digits_value d2) by (rewrite ED; apply digits_value_app).
  destruct d2 as [|x d2].
  - (* four digits *)
    cbn [app length] in *. rewrite digits_value_nil in DV. change (10 ^ Z.of_nat 0) with 1 in DV.
    assert (D5 : (if 5 <=? remaining p then let* x := nth_res p 4 in let* b := is_integer u x in Ok b else Ok false) = Ok false).
    { destruct (Z.leb_spec 5 (remaining p)) as [L5|L5]; [|reflexivity]. destruct rest as [|y rest]; [cbn [length] in LP; lia|].
      change 4 with (4 + Z.of_nat 0). rewrite (NTH 0%nat y eq_refl). cbn [bind]. rewrite is_integer_spec by (inversion CR; assumption).
      cbn [bind]. rewrite (head_notdigit _ _ N2). reflexivity. }
    rewrite D5. cbn [bind]. rewrite ADV4. cbn [bind]. left. split; [lia|]. rewrite u16_small by lia. do 3 f_equal. lia.
  - inversion A2 as [|? ? X1 X2]; subst x0 l.
    assert (D5 : (if 5 <=? remaining p then let* x := nth_res p 4 in let* b := is_integer u x in Ok b else Ok false) = Ok true).
    { cbn [length] in LP. destruct (Z.leb_spec 5 (remaining p)) as [L5|L5]; [|lia].
      change 4 with (4 + Z.of_nat 0). rewrite (NTH 0%nat x eq_refl). cbn [bind]. rewrite is_integer_spec by (inversion CR; assumption).
      cbn [bind]. rewrite X1. reflexivity. }
    rewrite D5. cbn [bind]. pose proof (NTH 0%nat x eq_refl) as N4. change (4 + Z.of_nat 0) with 4 in N4. rewrite N4. cbn [bind].
    rewrite minus_zero_digit by exact X1. cbn [bind]. apply digit_true in X1 as XR.
    rewrite (u32_small (digits_value a * 10)) by lia. rewrite (u32_small (x - 48)) by lia. rewrite u32_small by lia.
    assert (ADV5 : advance 5 p = Ok (d2 ++ rest)).
    { rewrite advance_Ok by (cbn [length] in LP; unfold remaining in LP; lia). f_equal.
      assert (SS : forall l : list Z, skipn 5 l = skipn 1 (skipn 4 l)) by (intros [|? [|? [|? [|? [|? ?]]]]]; reflexivity).
      rewrite SS, SK. reflexivity. }
    inversion CR as [|? ? CX CR2]; subst x0 l.
    destruct d2 as [|y d2].
    + assert (D6 : (if 6 <=? remaining p then let* y := nth_res p 5 in is_integer u y else Ok false) = Ok false).
      { destruct (Z.leb_spec 6 (remaining p)) as [L6|L6]; [|reflexivity]. destruct rest as [|y rest]; [cbn [length] in LP; lia|].
        change 5 with (4 + Z.of_nat 1). rewrite (NTH 1%nat y eq_refl). cbn [bind]. rewrite is_integer_spec by (inversion CR2; assumption).
        rewrite (head_notdigit _ _ N2). reflexivity. }
      rewrite D6. cbn [bind]. rewrite ADV5. cbn [bind app].
      rewrite digits_value_cons, digits_value_nil in DV. change (10 ^ Z.of_nat (length [x])) with 10 in DV. change (10 ^ Z.of_nat (length (@nil Z))) with 1 in DV.
      destruct (Z.ltb_spec 65535 (digits_value a * 10 + (x - 48))) as [G|G].
      * right. split; [lia|reflexivity].
      * left. split; [lia|]. rewrite u16_small by lia. do 3 f_equal. lia.
    + inversion X2 as [|? ? Y1 Y2]; subst x0 l.
      assert (D6 : (if 6 <=? remaining p then let* y := nth_res p 5 in is_integer u y else Ok false) = Ok true).
      { cbn [length] in LP. destruct (Z.leb_spec 6 (remaining p)) as [L6|L6]; [|lia].
        change 5 with (4 + Z.of_nat 1). rewrite (NTH 1%nat y eq_refl). cbn [bind]. rewrite is_integer_spec by (inversion CR2; assumption).
        rewrite Y1. reflexivity. }
      rewrite D6. cbn [bind]. rewrite ADV5. cbn [bind].
      rewrite (skip_integer_spec u _ (y :: d2) rest) by (try exact CR2; repeat split; assumption). cbn [bind].
      right. split; [|reflexivity]. rewrite DV. pose proof (digits_value_range _ A2) as VR.
      assert (10 ^ 2 <= 10 ^ Z.of_nat (length (x :: y :: d2))) by (apply Z.pow_le_mono_r; cbn [length]; lia). nia.
Qed.
