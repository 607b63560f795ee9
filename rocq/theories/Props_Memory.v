(** Properties C69 and C70: the memory a call touches. *)
From Verif Require Import Machine Config Chars Format ParseNumber DecToBin DigitComp FromChars Ints Memory WordLemmas
  SpecFloat FloatBridge SpecApi SpecIntApi FloatApi Props_Pow10 Props_Float Props_Ints Props_FindMax.
Open Scope Z_scope.

(** ** C69: text and destination in the same memory *)

(** Two regions of memory without a common address. *)
Definition apart (a size a' size' : Z) : Prop :=
  forall x, a <= x < a + size -> ~ a' <= x < a' + size'.

Definition bytes (m : memory) : Prop := forall a, 0 <= m a < 256.

Lemma text_length u m first n : length (text u m first n) = n.
Proof. unfold text. rewrite map_length, seq_length. reflexivity. Qed.

Lemma text_same u m m' first n : (forall a, first <= a < first + Z.of_nat n -> m' a = m a) -> text u m' first n = text u m first n.
Proof.
  intros S. unfold text. apply map_ext_in. intros i I. apply in_seq in I. rewrite S by lia. reflexivity.
Qed.

Lemma skipn_seq k : forall n a, skipn k (seq a n) = seq (a + k) (n - k).
Proof.
  induction k as [|k IH]; intros n a; [rewrite Nat.add_0_r, Nat.sub_0_r; reflexivity|].
  destruct n as [|n]; [reflexivity|]. cbn [seq skipn Nat.sub]. rewrite IH. f_equal. lia.
Qed.

Lemma text_skipn u m first n k : (k <= n)%nat -> skipn k (text u m first n) = text u m (first + Z.of_nat k) (n - k).
Proof.
  intros K. unfold text. rewrite skipn_map, skipn_seq.
  assert (G : forall l a, map (fun i => let b := m (first + Z.of_nat i) in if uc_signed u then to_signed 8 b else b) (seq (a + k) l) =
    map (fun i => let b := m (first + Z.of_nat k + Z.of_nat i) in if uc_signed u then to_signed 8 b else b) (seq a l)).
  { induction l as [|l IH]; intros a; [reflexivity|]. cbn [seq map Nat.add]. apply f_equal2; [|exact (IH (Datatypes.S a))].
    cbv zeta. replace (first + Z.of_nat (a + k)) with (first + Z.of_nat k + Z.of_nat a) by lia. reflexivity. }
  exact (G (n - k)%nat 0%nat).
Qed.

(** A suffix of the text is the text at a later address. *)
Lemma text_suffix u m first n pre q : text u m first n = pre ++ q ->
  q = text u m (first + Z.of_nat n - remaining q) (length q).
Proof.
  intros E. assert (L : n = (length pre + length q)%nat) by (rewrite <- app_length, <- E, text_length; reflexivity).
  assert (S : skipn (length pre) (text u m first n) = q) by (rewrite E, skipn_app, skipn_all, Nat.sub_diag; reflexivity).
  rewrite text_skipn in S by lia. rewrite <- S at 1. unfold remaining. f_equal; lia.
Qed.

Lemma text_code_units u m first n : u = Char_s \/ u = Char_u -> bytes m -> Forall (code_unit u) (text u m first n).
Proof.
  intros U B. apply Forall_forall. intros x I. unfold text in I. apply in_map_iff in I. destruct I as (i & <- & _).
  pose proof (B (first + Z.of_nat i)) as R. set (b := m _) in *. clearbody b. cbv zeta.
  destruct U as [-> | ->]; unfold code_unit, uc_min, uc_max; cbn [uc_signed uc_bits]; [|lia].
  unfold to_signed. rewrite Z.mod_small by lia. change (2 ^ (8 - 1)) with 128. change (2 ^ 8) with 256.
  destruct (Z.ltb_spec b 128); lia.
Qed.

(** *** Stores *)
Lemma after_outside c size d : forall l m a, ~ d <= a < d + size -> after c size d l m a = m a.
Proof.
  induction l as [|v l IH]; intros m a O; [reflexivity|]. cbn [after fold_left]. unfold after in IH. rewrite IH by exact O.
  unfold store. destruct (Z.leb_spec d a); destruct (Z.ltb_spec a (d + size)); cbn [andb]; try reflexivity. lia.
Qed.

Lemma after_last c size d : forall l v m a, after c size d (l ++ [v]) m a = store c size d v m a.
Proof.
  intros l v m a. unfold after. rewrite fold_left_app. cbn [fold_left]. fold (after c size d l m).
  unfold store at 1 2. destruct ((d <=? a) && (a <? d + size)) eqn:I; [reflexivity|].
  apply after_outside. apply andb_false_iff in I. rewrite Z.leb_gt, Z.ltb_ge in I. lia.
Qed.

(** The object representation: what a read of an object of [size] bytes at [d] sees. *)
Definition object_at (big : bool) (size : nat) (d : Z) (m : memory) : Z :=
  fold_right (fun i rest => m (d + Z.of_nat (if big then size - 1 - i else i)%nat) + 256 * rest) 0 (seq 0 size).

Lemma object_store c size d v m : 0 <= size ->
  object_at (big_endian c) (Z.to_nat size) d (store c size d v m) = v mod 2 ^ (8 * size).
Proof.
  intros S. unfold object_at. set (k := Z.to_nat size).
  assert (G : forall l a, (a + l = k)%nat ->
    fold_right (fun i rest => store c size d v m (d + Z.of_nat (if big_endian c then k - 1 - i else i)%nat) + 256 * rest) 0 (seq a l) =
    (v / 2 ^ (8 * Z.of_nat a)) mod 2 ^ (8 * Z.of_nat l)).
  { induction l as [|l IH]; intros a E; [cbn [seq fold_right]; change (2 ^ (8 * Z.of_nat 0)) with 1; rewrite Z.mod_1_r; reflexivity|].
    cbn [seq fold_right]. rewrite IH by lia.
    assert (EB : store c size d v m (d + Z.of_nat (if big_endian c then k - 1 - a else a)%nat) = (v / 2 ^ (8 * Z.of_nat a)) mod 256).
    { assert (I : (0 <= Z.of_nat a < size)) by lia. assert (J : Z.of_nat (k - 1 - a) = size - 1 - Z.of_nat a) by lia. clear IH E.
      unfold store. cbv zeta. destruct (big_endian c); [rewrite J|].
      - set (x := Z.of_nat a) in *. clearbody x. clear - I. replace (d <=? d + (size - 1 - x)) with true by (symmetry; apply Z.leb_le; lia).
        replace (d + (size - 1 - x) <? d + size) with true by (symmetry; apply Z.ltb_lt; lia). cbn [andb].
        replace (size - 1 - (d + (size - 1 - x) - d)) with x by lia. reflexivity.
      - set (x := Z.of_nat a) in *. clearbody x. clear - I. replace (d <=? d + x) with true by (symmetry; apply Z.leb_le; lia).
        replace (d + x <? d + size) with true by (symmetry; apply Z.ltb_lt; lia). cbn [andb].
        replace (d + x - d) with x by lia. reflexivity. }
    rewrite EB. set (q := v / 2 ^ (8 * Z.of_nat a)).
    replace (v / 2 ^ (8 * Z.of_nat (Datatypes.S a))) with (q / 256)
      by (unfold q; rewrite Z.div_div by lia; f_equal; rewrite Nat2Z.inj_succ; replace (8 * Z.succ (Z.of_nat a)) with (8 * Z.of_nat a + 8) by lia; rewrite Z.pow_add_r by lia; reflexivity).
    replace (2 ^ (8 * Z.of_nat (Datatypes.S l))) with (256 * 2 ^ (8 * Z.of_nat l))
      by (rewrite Nat2Z.inj_succ; replace (8 * Z.succ (Z.of_nat l)) with (8 + 8 * Z.of_nat l) by lia; rewrite Z.pow_add_r by lia; reflexivity).
    rewrite Z.rem_mul_r by lia. reflexivity. }
  rewrite (G k 0%nat) by lia. change (2 ^ (8 * Z.of_nat 0)) with 1. rewrite Z.div_1_r. unfold k. rewrite Z2Nat.id by exact S. reflexivity.
Qed.

(** The memory [m'] is [m] but for the destination, which holds the value read, if there
    is one. *)
Definition stored (c : cfg) (size d : Z) (v : option Z) (m m' : memory) : Prop :=
  (forall a, ~ d <= a < d + size -> m' a = m a) /\
  match v with
  | Some v => object_at (big_endian c) (Z.to_nat size) d m' = v mod 2 ^ (8 * size)
  | None => forall a, m' a = m a
  end.

Lemma object_same big size d m m' : (forall a, m' a = m a) -> object_at big size d m' = object_at big size d m.
Proof.
  intros E. unfold object_at. induction (seq 0 size) as [|i l IH]; [reflexivity|]. cbn [fold_right]. rewrite IH, E. reflexivity.
Qed.

Lemma after_stored c size d v l m : 0 <= size -> match v with Some v => exists k, l = k ++ [v] | None => l = [] end ->
  stored c size d v m (after c size d l m).
Proof.
  intros S E. split; [intros a O; apply after_outside; exact O|]. destruct v as [v|].
  - destruct E as (k & ->). rewrite (object_same _ _ _ (store c size d v m)) by (intros a; apply after_last). apply object_store; exact S.
  - rewrite E. reflexivity.
Qed.

Lemma clinger_stores_spec c t w q neg :
  match clinger_fast_path_impl c t w q neg with
  | Ok (Some v) => exists l, clinger_stores c t w q neg = Ok (Some (l ++ [v])) /\ (length l <= 2)%nat
  | Ok None => clinger_stores c t w q neg = Ok None
  | UB => clinger_stores c t w q neg = UB
  end.
Proof.
  unfold clinger_fast_path_impl, clinger_stores. cbv zeta.
  destruct ((min_exponent_fast_path c t <=? q) && (q <=? max_exponent_fast_path t)); [|reflexivity].
  destruct (negb (in_constexpr c) && rounds_to_nearest c).
  - destruct (w <=? max_mantissa_fast_path t); [|reflexivity].
    destruct (q <? 0); (destruct (exact_power_of_ten t _) as [pw|]; cbn [bind]; [|reflexivity]).
    + set (v := fp_of_u64 c t w). set (x := fp_div c t v pw). destruct neg; [exists [v; x]|exists [v]]; (split; [reflexivity|cbn; lia]).
    + set (v := fp_of_u64 c t w). set (x := fp_mul c t v pw). destruct neg; [exists [v; x]|exists [v]]; (split; [reflexivity|cbn; lia]).
  - destruct (0 <=? q); [|reflexivity]. destruct (max_mantissa_fast_path_pow t q) as [mm|]; cbn [bind]; [|reflexivity].
    destruct (w <=? mm); [|reflexivity]. destruct ((is_clang c || is_32bit c) && (w =? 0)).
    + exists []. split; [reflexivity|cbn; lia].
    + destruct (exact_power_of_ten t q) as [pw|]; cbn [bind]; [|reflexivity].
      set (x := fp_mul c t _ pw). destruct neg; [exists [x]|exists []]; (split; [reflexivity|cbn; lia]).
Qed.

(** What the effect of a call is, given its result. *)
Definition effect_of (last : Z) (r : result) (e : effect) : Prop :=
  e_ec e = r_ec r /\ e_ptr e = last - remaining (r_ptr r) /\
  match r_value r with
  | None => e_stores e = []
  | Some v => exists l, e_stores e = l ++ [v] /\ (length l <= 2)%nat
  end.

Lemma effect_pns c u t last pns r : from_chars_advanced_pns c u t pns = Ok r ->
  exists e, from_chars_advanced_effect c u t last pns = Ok e /\ effect_of last r e.
Proof.
  unfold from_chars_advanced_pns, from_chars_advanced_effect. intros E.
  assert (CL : exists o, (if negb (pn_too_many_digits pns) then clinger_fast_path_impl c t (pn_mantissa pns) (pn_exponent pns) (pn_negative pns) else Ok None) = Ok o /\
    match o with
    | Some v => exists l, (if negb (pn_too_many_digits pns) then clinger_stores c t (pn_mantissa pns) (pn_exponent pns) (pn_negative pns) else Ok None) = Ok (Some (l ++ [v])) /\ (length l <= 2)%nat
    | None => (if negb (pn_too_many_digits pns) then clinger_stores c t (pn_mantissa pns) (pn_exponent pns) (pn_negative pns) else Ok None) = Ok None
    end).
  { destruct (pn_too_many_digits pns); cbn [negb] in *; [exists None; split; reflexivity|].
    pose proof (clinger_stores_spec c t (pn_mantissa pns) (pn_exponent pns) (pn_negative pns)) as CS.
    destruct (clinger_fast_path_impl c t _ _ _) as [[v|]|]; [exists (Some v); auto|exists None; auto|discriminate E]. }
  destruct CL as (o & E1 & E2). rewrite E1 in E. cbn [bind] in E. destruct o as [v|].
  - destruct E2 as (l & -> & L). injection E as <-. cbn [bind]. eexists. split; [reflexivity|]. split; [reflexivity|]. split; [reflexivity|].
    exists l. split; [reflexivity|exact L].
  - rewrite E2. cbn [bind].
    destruct (compute_float c t (pn_exponent pns) (pn_mantissa pns)) as [am|]; cbn [bind] in *; [|discriminate E].
    destruct (if pn_too_many_digits pns && (0 <=? am_power2 am) then _ else _) as [am1|]; cbn [bind] in *; [|discriminate E].
    destruct (if am_power2 am1 <? 0 then _ else _) as [am2|]; cbn [bind] in *; [|discriminate E].
    destruct (to_float t _ am2) as [v|]; cbn [bind] in *; [|discriminate E]. injection E as <-.
    eexists. split; [reflexivity|]. split; [reflexivity|]. split; [reflexivity|]. exists []. split; [reflexivity|cbn; lia].
Qed.

(** The number read is a NaN. *)
Definition nan_value (t : ftype) (v : Z) : Prop := infinity (format_of t) < v mod 2 ^ sign_index t.

Lemma quiet_nan_value t (minus : bool) : nan_value t (if minus then fp_neg t (quiet_nan_bits t) else quiet_nan_bits t).
Proof. unfold nan_value. destruct t, minus; vm_compute; reflexivity. Qed.

(** [e] is the effect of a call with result [r], the pointer only if the text keeps its
    characters or is no NaN. *)
Definition effect_near (t : ftype) (last n : Z) (safe : Prop) (r : result) (e : effect) : Prop :=
  e_ec e = r_ec r /\
  (safe \/ (forall v, r_value r = Some v -> ~ nan_value t v) -> e_ptr e = last - remaining (r_ptr r)) /\
  (e_ptr e = last - remaining (r_ptr r) \/ last - n <= e_ptr e <= last) /\
  match r_value r with
  | None => e_stores e = []
  | Some v => exists l, e_stores e = l ++ [v] /\ (length l <= 2)%nat
  end.

Lemma effect_of_near t last n safe r e : effect_of last r e -> effect_near t last n safe r e.
Proof. intros (H1 & H2 & H3). split; [exact H1|]. split; [intros _; exact H2|]. split; [left; exact H2|exact H3]. Qed.

Lemma advance_length n (p q : list Z) : advance n p = Ok q -> (length q <= length p)%nat.
Proof.
  unfold advance. destruct (n <=? length p)%nat; [|discriminate]. intros E. injection E as <-. rewrite skipn_length. lia.
Qed.

Lemma effect_infnan c u t m first n d fmt k r : (k <= n)%nat -> 
  parse_infnan c u t (text u m (first + Z.of_nat n - Z.of_nat k) k) fmt = Ok r ->
  exists e, parse_infnan_effect c u t m (first + Z.of_nat n) k d fmt = Ok e /\
    effect_near t (first + Z.of_nat n) (Z.of_nat n) (apart first (Z.of_nat n) d (size_of t)) r e.
Proof.
  intros K E. unfold parse_infnan_effect. unfold parse_infnan in E. set (last := first + Z.of_nat n) in *.
  remember (text u m (last - Z.of_nat k) k) as p eqn:EP. destruct p as [|ch0 p]; [discriminate E|]. cbn [deref bind] in *.
  cbv zeta in *. set (q := if (ch0 =? 45) || _ then tl (ch0 :: p) else ch0 :: p) in *.
  assert (SQ : exists pre, ch0 :: p = pre ++ q) by (unfold q; destruct ((ch0 =? 45) || _); [exists [ch0]|exists []]; reflexivity).
  assert (DONE : forall r0 v, effect_of last {| r_ptr := r0; r_ec := Success; r_value := Some v |} {| e_ptr := last - remaining r0; e_ec := Success; e_stores := [v] |}).
  { intros r0 v. split; [reflexivity|]. split; [reflexivity|]. exists []. split; [reflexivity|cbn; lia]. }
  assert (FAIL : effect_of last {| r_ptr := ch0 :: p; r_ec := InvalidArgument; r_value := None |}
    {| e_ptr := last - remaining (ch0 :: p); e_ec := InvalidArgument; e_stores := [] |}).
  { split; [reflexivity|]. split; reflexivity. }
  destruct (3 <=? remaining q) eqn:L3; [|injection E as <-; eexists; split; [reflexivity|apply effect_of_near; exact FAIL]].
  destruct (strncasecmp3 c u q str_const_nan) as [is_nan|]; cbn [bind] in *; [|discriminate E].
  destruct is_nan.
  - destruct (advance 3 q) as [q3|] eqn:AQ; cbn [bind] in *; [|discriminate E]. injection E as <-.
    eexists. split; [reflexivity|]. split; [reflexivity|]. split; [|split; [right; cbn [e_ptr]|exists []; split; [reflexivity|cbn; lia]]].
    2:{ set (T := text u (store _ _ _ _ _) _ _).
      assert (LT : (length T <= k)%nat).
      { unfold T. rewrite text_length. destruct SQ as (pre & SQ). pose proof (advance_length _ _ _ AQ) as AL.
        apply (f_equal (@length Z)) in SQ. rewrite EP, text_length, app_length in SQ. lia. }
      match goal with |- _ <= last - remaining ?X <= _ => assert (LX : (length X <= length T)%nat) end.
      { clearbody T. destruct T as [|x T]; [lia|]. destruct (x =? 40); [|lia]. destruct (nan_payload T) as [rr|] eqn:NP; [|lia].
        destruct (Special.nan_payload_some _ _ NP) as (l & _ & ->). cbn [length]. rewrite app_length. cbn [length]. lia. }
      unfold remaining. lia. }
    cbn [r_value r_ptr e_ptr]. intros [A|NN]; [|destruct (NN _ eq_refl); apply quiet_nan_value].
    assert (Q3 : text u (store c (size_of t) d (if ch0 =? 45 then fp_neg t (quiet_nan_bits t) else quiet_nan_bits t) m) (last - remaining q3) (length q3) = q3).
    { assert (SX : exists pre, text u m (last - Z.of_nat k) k = pre ++ q3).
      { destruct SQ as (pre & SQ). unfold advance in AQ. destruct (3 <=? length q)%nat; [|discriminate AQ]. injection AQ as <-.
        exists (pre ++ firstn 3 q). rewrite <- app_assoc, firstn_skipn, <- EP. exact SQ. }
      destruct SX as (pre & SX). pose proof (text_suffix _ _ _ _ _ _ SX) as TS. replace (last - Z.of_nat k + Z.of_nat k) with last in TS by lia.
      assert (LQ : (length q3 <= k)%nat) by (apply (f_equal (@length Z)) in SX; rewrite text_length, app_length in SX; lia).
      etransitivity; [|symmetry; exact TS]. apply text_same. intros a R. unfold store.
      assert (NA : ~ d <= a < d + size_of t) by (apply A; unfold remaining in R; lia).
      destruct (Z.leb_spec d a); destruct (Z.ltb_spec a (d + size_of t)); cbn [andb]; try reflexivity. lia. }
    rewrite Q3. reflexivity.
  - destruct (strncasecmp3 c u q str_const_inf) as [is_inf|]; cbn [bind] in *; [|discriminate E].
    destruct is_inf; [|injection E as <-; eexists; split; [reflexivity|apply effect_of_near; exact FAIL]].
    destruct (advance 3 q) as [q3|]; cbn [bind] in *; [|discriminate E].
    destruct (if 8 <=? remaining q then _ else _) as [long|]; cbn [bind] in *; [|discriminate E].
    destruct (if long then _ else _) as [rest|]; cbn [bind] in *; [|discriminate E]. injection E as <-.
    eexists. split; [reflexivity|]. apply effect_of_near. apply DONE.
Qed.

Lemma skip_suffix : forall p q, skip_ws p = Ok q -> exists pre, p = pre ++ q.
Proof.
  induction p as [|ch p IH]; intros q E; cbn [skip_ws] in E; [injection E as <-; exists []; reflexivity|].
  destruct (is_space ch) as [b|]; cbn [bind] in E; [|discriminate E]. destruct b; [|injection E as <-; exists []; reflexivity].
  destruct (IH q E) as (pre & ->). exists (ch :: pre). reflexivity.
Qed.

Lemma effect_float c u t m first n d o r : from_chars_float_advanced c u t (text u m first n) o = Ok r ->
  exists e, from_chars_float_effect c u t m first n d o = Ok e /\
    effect_near t (first + Z.of_nat n) (Z.of_nat n) (apart first (Z.of_nat n) d (size_of t)) r e.
Proof.
  unfold from_chars_float_advanced, from_chars_float_effect. cbv zeta. intros E.
  set (fmt := adjust_for_feature_macros c (o_format o)) in *. set (last := first + Z.of_nat n) in *.
  destruct (if flag fmt f_skip_white_space then skip_ws (text u m first n) else Ok (text u m first n)) as [p|] eqn:EP; cbn [bind] in *; [|discriminate E].
  assert (SP : exists pre, text u m first n = pre ++ p).
  { destruct (flag fmt f_skip_white_space); [apply skip_suffix; exact EP|]. injection EP as <-. exists []. reflexivity. }
  destruct SP as (pre & SP).
  destruct p as [|ch p]; [injection E as <-; eexists; split; [reflexivity|apply effect_of_near; split; [reflexivity|split; [cbn [e_ptr r_ptr]; unfold remaining; cbn [length]; lia|reflexivity]]]|].
  set (pp := ch :: p) in *.
  assert (SLOW : forall r, parse_number_slow_path c u t pp o (flag fmt f_basic_json) = Ok r -> exists e,
    (let* pns := parse_number_string c u (flag fmt f_basic_json) pp o true in from_chars_advanced_effect c u t last pns) = Ok e /\
    effect_near t last (Z.of_nat n) (apart first (Z.of_nat n) d (size_of t)) r e).
  { intros r0 E0. unfold parse_number_slow_path in E0. destruct (parse_number_string c u _ pp o true) as [pns|]; cbn [bind] in *; [|discriminate E0].
    destruct (effect_pns c u t last pns r0 E0) as (e & EE & H). exists e. split; [exact EE|apply effect_of_near; exact H]. }
  destruct (parse_number_string c u (flag fmt f_basic_json) pp o false) as [pns|]; cbn [bind] in *; [|discriminate E].
  destruct (negb (pn_valid pns)).
  - destruct (flag fmt f_no_infnan).
    + injection E as <-. eexists. split; [reflexivity|]. apply effect_of_near. split; [reflexivity|]. split; reflexivity.
    + assert (LE : (length pp <= n)%nat) by (apply (f_equal (@length Z)) in SP; rewrite text_length, app_length in SP; lia).
      rewrite (text_suffix _ _ _ _ _ _ SP) in E. exact (effect_infnan c u t m first n d fmt (length pp) r LE E).
  - destruct (pn_too_many_digits pns); [apply SLOW; exact E|].
    pose proof (clinger_stores_spec c t (pn_mantissa pns) (pn_exponent pns) (pn_negative pns)) as CS.
    destruct (clinger_fast_path_impl c t _ _ _) as [[v|]|]; cbn [bind] in E; [| |discriminate E].
    + destruct CS as (l & -> & L). cbn [bind]. injection E as <-. eexists. split; [reflexivity|]. apply effect_of_near.
      split; [reflexivity|]. split; [reflexivity|]. exists l. split; [reflexivity|exact L].
    + rewrite CS. cbn [bind]. destruct (compute_float c t _ _) as [am|]; cbn [bind] in *; [|discriminate E].
      destruct (am_power2 am <? 0); [apply SLOW; exact E|].
      destruct (to_float t _ am) as [v|]; cbn [bind] in *; [|discriminate E]. injection E as <-.
      eexists. split; [reflexivity|]. apply effect_of_near. split; [reflexivity|]. split; [reflexivity|]. exists []. split; [reflexivity|cbn; lia].
Qed.

(** The bytes of an object: sign, exponent and fraction. *)
Definition object_bytes (t : ftype) : Z := (1 + exp_bits (format_of t) + frac_bits (format_of t)) / 8.

Lemma size_bytes t : size_of t = object_bytes t.
Proof. destruct t; reflexivity. Qed.

(** C69: a call with the text and the destination anywhere in memory, overlapping or
    not: the error code and the number stored are those of the call on the text as it
    was before, and so is the pointer unless the number is a NaN and the destination
    overlaps the text; even then it points into the text or to its end.  At no moment of the call has a byte outside the destination
    changed, and if there is no number no byte at all. *)
Theorem from_chars_in_place :
  forall (c : cfg) (u : uc) (t : ftype) (m : memory) (first : Z) (n : nat) (d : Z) (o : options),
  u = Char_s \/ u = Char_u -> bytes m -> Z.of_nat n <= 2 ^ 59 ->
  exists r e,
    from_chars_float_advanced c u t (text u m first n) o = Ok r /\
    from_chars_float_effect c u t m first n d o = Ok e /\
    e_ec e = r_ec r /\
    (apart first (Z.of_nat n) d (object_bytes t) \/ (forall v, r_value r = Some v -> ~ nan_value t v) ->
       e_ptr e = first + Z.of_nat n - Z.of_nat (length (r_ptr r))) /\
    first <= e_ptr e <= first + Z.of_nat n /\
    stored c (object_bytes t) d (r_value r) m (after c (object_bytes t) d (e_stores e) m) /\
    (forall l l', e_stores e = l ++ l' -> forall a, ~ d <= a < d + object_bytes t -> after c (object_bytes t) d l m a = m a) /\
    (r_value r = None -> e_stores e = []).
Proof.
  intros c u t m first n d o U B L. rewrite <- size_bytes.
  destruct (from_chars_defined c u t o (text u m first n) (text_code_units u m first n U B)) as (r & E & cons & SUF);
    [intros ->; destruct U; discriminate|rewrite text_length; exact L|].
  destruct (effect_float c u t m first n d o r E) as (e & EE & H1 & H2 & HP & H3). exists r, e. split; [exact E|]. split; [exact EE|].
  split; [exact H1|]. split; [exact H2|]. split.
  { apply (f_equal (@length Z)) in SUF. rewrite text_length, app_length in SUF. unfold remaining in HP. lia. }
  split; [|split; [intros l l' _; apply after_outside|]].
  - apply after_stored; [destruct t; discriminate|]. destruct (r_value r) as [v|]; [|exact H3]. destruct H3 as (l & H3 & _). exists l; exact H3.
  - intros V. rewrite V in H3. exact H3.
Qed.
Print Assumptions from_chars_in_place.

(** The text "nan(ab)" of an array of char whose bytes are also those of the double
    that is read: the characters after the word are those of the stored NaN, and the
    pointer is that after "nan". *)
Definition nan_text : list Z := [110; 97; 110; 40; 97; 98; 41].
Definition nan_memory : memory := fun a => nth (Z.to_nat a) nan_text 32.

Theorem from_chars_in_place_refuted :
  bytes nan_memory /\ text Char_s nan_memory 0 7%nat = nan_text /\
  (forall d, d = 100 \/ d = 0 -> from_chars_float_effect cfg_x86_64 Char_s F64 nan_memory 0 7%nat d {| o_format := 5; o_decimal_point := 46; o_base := 10 |} =
    Ok {| e_ptr := if d =? 100 then 7 else 3; e_ec := Success; e_stores := [9221120237041090560] |}).
Proof.
  split; [|split; [reflexivity|intros d [-> | ->]; vm_compute; reflexivity]].
  intros a. unfold nan_memory, nan_text. destruct (Z.to_nat a) as [|[|[|[|[|[|[|[|k]]]]]]]]; cbn; lia.
Qed.
Print Assumptions from_chars_in_place_refuted.

(** The text "-1.5e3" in the bytes of the double it becomes: the number is stored in
    three steps, and read as if it were elsewhere. *)
Example from_chars_in_place_example :
  let m : memory := fun a => nth (Z.to_nat a) [45; 49; 46; 53; 101; 51] 32 in
  text Char_s m 0 6%nat = [45; 49; 46; 53; 101; 51] /\
  from_chars_float_effect cfg_x86_64 Char_s F64 m 0 6%nat 0 {| o_format := 5; o_decimal_point := 46; o_base := 10 |} =
    Ok {| e_ptr := 6; e_ec := Success; e_stores := [4624633867356078080; 4654311885213007872; 13877683922067783680] |} /\
  map (after cfg_x86_64 8 0 [4624633867356078080; 4654311885213007872; 13877683922067783680] m) [0; 1; 2; 3; 4; 5; 6; 7; 8] =
    [0; 0; 0; 0; 0; 112; 151; 192; 32].
Proof. vm_compute. repeat split. Qed.

(** C69, the types std::float32_t and std::float64_t, which are read into a variable of
    the library first: text and destination may overlap in every case. *)
Theorem from_chars_fixed_width_in_place :
  forall (c : cfg) (u : uc) (t : ftype) (m : memory) (first : Z) (n : nat) (d : Z) (fmt : Z),
  u = Char_s \/ u = Char_u -> bytes m -> Z.of_nat n <= 2 ^ 59 ->
  exists r v e,
    from_chars_float c u t (text u m first n) fmt = Ok r /\
    from_chars_fixed_width_effect c u t m first n d fmt = Ok e /\
    e_ec e = r_ec r /\
    e_ptr e = first + Z.of_nat n - Z.of_nat (length (r_ptr r)) /\
    (forall w, r_value r = Some w -> v = w) /\
    stored c (object_bytes t) d (Some v) m (after c (object_bytes t) d (e_stores e) m).
Proof.
  intros c u t m first n d fmt U B L. unfold from_chars_fixed_width_effect, from_chars_fixed_width, from_chars_float.
  destruct (from_chars_defined c u t {| o_format := fmt; o_decimal_point := 46; o_base := 10 |} (text u m first n) (text_code_units u m first n U B)) as (r & E & _);
    [intros ->; destruct U; discriminate|rewrite text_length; exact L|]. rewrite E. cbn [bind r_ptr r_ec r_value].
  exists r, (match r_value r with Some w => w | None => 0 end). eexists. split; [reflexivity|]. split; [reflexivity|].
  split; [reflexivity|]. split; [reflexivity|]. split; [intros w ->; reflexivity|]. apply after_stored; [destruct t; discriminate|]. cbn [e_stores].
  exists []. destruct (r_value r); reflexivity.
Qed.
Print Assumptions from_chars_fixed_width_in_place.

(** C69, the integers; an object of type bool has one byte. *)
Theorem from_chars_int_in_place :
  forall (c : cfg) (u : uc) (T : ity) (m : memory) (first : Z) (n : nat) (d : Z) (o : options),
  int_type T -> u = Char_s \/ u = Char_u -> bytes m ->
  exists r e,
    from_chars_int_advanced c u T (text u m first n) o = Ok r /\
    from_chars_int_effect c u T m first n d o = Ok e /\
    e_ec e = r_ec r /\
    e_ptr e = first + Z.of_nat n - Z.of_nat (length (r_ptr r)) /\
    stored c ((i_bits T + 7) / 8) d (r_value r) m (after c ((i_bits T + 7) / 8) d (e_stores e) m).
Proof.
  intros c u T m first n d o IT U B. unfold from_chars_int_effect.
  destruct (from_chars_int_defined c u T o (text u m first n) IT (text_code_units u m first n U B)) as (r & E & _).
  rewrite E. cbn [bind]. exists r. eexists. split; [reflexivity|]. split; [reflexivity|].
  split; [reflexivity|]. split; [reflexivity|]. apply after_stored.
  - destruct IT as (W & _). apply Z.div_pos; [|lia]. destruct (i_signed T); cbn [In] in W; lia.
  - cbn [e_stores]. destruct (r_value r); [exists []|]; reflexivity.
Qed.
Print Assumptions from_chars_int_in_place.
