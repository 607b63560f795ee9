(** Properties C22, C25, C26, C27, C28, C29, C31: relations between texts,
    stored values and the other entry points.
    Statements use the entry points and the Spec files only. *)
From Verif Require Import Machine Config Chars Format ParseNumber DecToBin FromChars WordLemmas
  Rounding ComputeFloat SpecFloat FloatBridge Pow10 SpecGrammar SpecApi SpecRel Scan ParseSpec Special
  SlowPath ManyDigits Saturate FloatMaster FloatApi FloatRel Props_Pow10 Props_Float Props_Relations.
From Coq Require Import QArith Qabs Qpower Lqa.
Open Scope Z_scope.

(** ** C25: the text after the number *)
Lemma number_consumes R s neg ip fp e rest : number R s neg ip fp e rest -> exists p, s = p ++ rest /\ p <> [].
Proof.
  intros N. destruct (number_suffix _ _ _ _ _ _ _ N) as (p & ->). exists p. split; [reflexivity|].
  intros ->. pose proof (number_trailing R [] neg ip fp e rest [] N I) as N'. exact (number_nonempty _ _ _ _ _ _ _ N' eq_refl).
Qed.

Lemma special_consumes plus s neg k rest : special plus s neg k rest -> exists p, s = p ++ rest /\ p <> [].
Proof.
  intros N. destruct (special_suffix _ _ _ _ _ N) as (p & ->). exists p. split; [reflexivity|].
  intros ->. pose proof (special_trailing plus [] neg k rest [] N I) as N'.
  destruct (special_head _ _ _ _ _ N') as (s1 & a & b & cc & l & [E|[E|E]] & -> & _); discriminate E.
Qed.

Lemma starts_change c o q p rest rest' s0 : p <> [] -> starts_at c o (q ++ rest) s0 -> s0 = p ++ rest ->
  exists w, q = w ++ p /\ starts_at c o (q ++ rest') (p ++ rest').
Proof.
  intros NE SA ->. unfold starts_at in *. destruct (skips_space c o).
  - destruct SA as (w & E & W & N). exists w. rewrite app_assoc in E. apply app_inv_tail in E. subst q.
    split; [reflexivity|]. exists w. rewrite <- app_assoc. split; [reflexivity|]. split; [exact W|].
    destruct p; [congruence|]. exact N.
  - apply app_inv_tail in SA. subst q. exists []. split; reflexivity.
Qed.

Theorem from_chars_trailing_text :
  forall (c : cfg) (u : uc) (t : ftype) (o : options) (q rest rest' : list Z) (x : ec) (v : option Z),
  good_text c u o (q ++ rest) -> good_text c u o (q ++ rest') ->
  from_chars_float_advanced c u t (q ++ rest) o = Ok {| r_ptr := rest; r_ec := x; r_value := v |} ->
  x <> InvalidArgument ->
  number_ends (o_decimal_point o) rest' -> special_ends rest' ->
  from_chars_float_advanced c u t (q ++ rest') o = Ok {| r_ptr := rest'; r_ec := x; r_value := v |}.
Proof.
  intros c u t o q rest rest' x v G1 G2 E NI NE SE.
  destruct (starts_exists c o (q ++ rest)) as (s0 & SA).
  destruct (number_or_not c u o _ s0 G1 SA) as [(neg & ip & fp & e & r & N)|NN].
  - destruct (number_consumes _ _ _ _ _ _ _ N) as (p & ES & NP).

    destruct (float_same c t ip fp e o u _ _ _ _ o u _ _ _ _ G1 SA N G1 SA N) as (b0 & x0 & _ & E0 & _).
    rewrite E0 in E. injection E as -> <- <-.
    destruct (starts_change c o q p rest rest' s0 NP SA ES) as (w & -> & SA').
    subst s0. pose proof (number_trailing _ _ _ _ _ _ _ rest' N NE) as N'.
    destruct (float_same c t ip fp e o u _ _ _ _ o u _ _ _ _ G1 SA N G2 SA' N') as (b1 & x1 & _ & E1 & E2).
    rewrite E1 in E0. injection E0 as -> E0. rewrite E2, E0. reflexivity.
  - destruct (other_main c u t o _ s0 G1 SA NN) as [(_ & E')|[(_ & _ & E')|(neg & k & r & AS & SP & E')]];
      rewrite E' in E; injection E as -> <- <-; try congruence.
    destruct (special_consumes _ _ _ _ _ SP) as (p & ES & NP).
    destruct (starts_change c o q p rest rest' s0 NP SA ES) as (w & -> & SA'). subst s0.
    pose proof (special_trailing _ _ _ _ _ rest' SP SE) as SP'.
    destruct (other_main c u t o _ _ G2 SA' (special_not_number _ _ _ _ _ _ SP')) as [(A & _)|[(_ & NS & _)|(n' & k' & r' & _ & SP2 & E2)]].
    + congruence.
    + destruct (NS _ _ _ SP').
    + destruct (special_unique _ _ _ _ _ _ _ _ SP' SP2) as (<- & <- & <-). exact E2.
Qed.
Print Assumptions from_chars_trailing_text.

(** "1.5" followed by "abc" or by nothing. *)
Example trailing_example :
  from_chars_float cfg_x86_64 Char_s F64 [49; 46; 53; 97; 98; 99] 5 =
    Ok {| r_ptr := [97; 98; 99]; r_ec := Success; r_value := Some 4609434218613702656 |} /\
  from_chars_float cfg_x86_64 Char_s F64 [49; 46; 53] 5 =
    Ok {| r_ptr := []; r_ec := Success; r_value := Some 4609434218613702656 |}.
Proof. split; vm_compute; reflexivity. Qed.

(** ** C26: monotone *)
Lemma near_zero t x b : (x == 0)%Q -> near t x b -> b = 0.
Proof.
  intros E N. apply (tiny_near t x b).
  - rewrite E. apply Qle_refl.
  - rewrite E. apply dec_nonneg. lia.
  - apply near_near0, N.
Qed.

Lemma magnitude_0 t : (magnitude (format_of t) 0 == 0)%Q.
Proof. destruct t; reflexivity. Qed.

Lemma number_near c u t o s s0 neg ip fp e rest :
  good_text c u o s -> starts_at c o s s0 -> number (rules_of c o) s0 neg ip fp e rest -> exponent_bounded s e ->
  exists b x, from_chars_float_advanced c u t s o =
      Ok {| r_ptr := rest; r_ec := x; r_value := Some (with_sign (format_of t) neg b) |} /\
    near t (number_value ip fp e) b.
Proof.
  intros G SA N EB.
  destruct (float_number c u t o s s0 neg ip fp e rest (good_text_ok _ _ _ _ G) SA N) as (b & x & E & NR & _).
  { destruct EB; [right|left]; assumption. }
  exists b, x. split; [exact E|]. eapply near_comp; [symmetry; apply number_value_dec|exact NR].
Qed.

(** ** The error code *)
Lemma code_finite c t W q b x : 0 <= W -> near t (dec W q) b -> b < inf_code t -> ok_ec c t W q b x ->
  x = if (0 <? W) && (b =? 0) then OutOfRange else Success.
Proof.
  intros HW N LB (OQ & OE). pose proof (near_range t _ _ N) as RB.
  destruct (quiet_dec c t W q) as [Q|Q].
  - rewrite (OQ Q). destruct (Z.ltb_spec 0 W) as [W0|W0]; [|reflexivity]. cbn [andb].
    destruct (Z.eqb_spec b 0) as [->|]; [exfalso|reflexivity].
    destruct Q as (-> & _ & _ & _ & _ & Q).
    destruct (nearest_of F16 _ _ N) as (_ & ND). specialize (ND 15360 ltac:(vm_compute; split; congruence)).
    assert (M1 : (magnitude (format_of F16) 15360 == 1)%Q) by (vm_compute; reflexivity).
    assert (M0 : (magnitude (format_of F16) 0 == 0)%Q) by (vm_compute; reflexivity).
    rewrite M1, M0 in ND.
    assert (V : (1 <= dec W q)%Q).
    { pose proof (dec_ge_pow W q 0 ltac:(lia) ltac:(lia)) as V. unfold dec in V at 1. rewrite qpow_0 in V.
      change ([1]q * 1)%Q with 1%Q in V. exact V. }
    rewrite !Qabs_pos in ND by lra. lra.
  - rewrite (OE Q). unfold range_code. destruct (Z.eqb_spec b (inf_code t)); [lia|]. rewrite orb_false_r. reflexivity.
Qed.

Lemma number_near_code c u t o s s0 neg ip fp e rest :
  good_text c u o s -> starts_at c o s s0 -> number (rules_of c o) s0 neg ip fp e rest -> exponent_bounded s e ->
  exists b x, from_chars_float_advanced c u t s o =
      Ok {| r_ptr := rest; r_ec := x; r_value := Some (with_sign (format_of t) neg b) |} /\
    near t (number_value ip fp e) b /\
    (b < inf_code t -> x = if (0 <? digits_value (ip ++ fp)) && (b =? 0) then OutOfRange else Success).
Proof.
  intros G SA N EB.
  destruct (float_number c u t o s s0 neg ip fp e rest (good_text_ok _ _ _ _ G) SA N) as (b & x & E & NR & OE).
  { destruct EB; [right|left]; assumption. }
  destruct (number_digits _ _ _ _ _ _ _ N) as (AI & AF & _).
  pose proof (digits_value_range (ip ++ fp) ltac:(apply Forall_app; split; assumption)) as (W0 & _).
  exists b, x. split; [exact E|]. split.
  - eapply near_comp; [symmetry; apply number_value_dec|exact NR].
  - intros LB. exact (code_finite c t _ _ b x W0 NR LB OE).
Qed.

Theorem from_chars_monotone :
  forall (t : ftype)
    (c1 : cfg) (u1 : uc) (o1 : options) (s1 s01 : list Z) (neg1 : bool) (ip1 fp1 : list Z) (e1 : Z) (rest1 : list Z)
    (c2 : cfg) (u2 : uc) (o2 : options) (s2 s02 : list Z) (neg2 : bool) (ip2 fp2 : list Z) (e2 : Z) (rest2 : list Z),
  good_text c1 u1 o1 s1 -> starts_at c1 o1 s1 s01 -> number (rules_of c1 o1) s01 neg1 ip1 fp1 e1 rest1 -> exponent_bounded s1 e1 ->
  good_text c2 u2 o2 s2 -> starts_at c2 o2 s2 s02 -> number (rules_of c2 o2) s02 neg2 ip2 fp2 e2 rest2 -> exponent_bounded s2 e2 ->
  (signed_value neg1 (number_value ip1 fp1 e1) <= signed_value neg2 (number_value ip2 fp2 e2))%Q ->
  exists b1 x1 b2 x2,
    from_chars_float_advanced c1 u1 t s1 o1 =
      Ok {| r_ptr := rest1; r_ec := x1; r_value := Some (with_sign (format_of t) neg1 b1) |} /\
    from_chars_float_advanced c2 u2 t s2 o2 =
      Ok {| r_ptr := rest2; r_ec := x2; r_value := Some (with_sign (format_of t) neg2 b2) |} /\
    0 <= b1 <= infinity (format_of t) /\ 0 <= b2 <= infinity (format_of t) /\
    (float_value (format_of t) neg1 b1 <= float_value (format_of t) neg2 b2)%Q.
Proof.
  intros t c1 u1 o1 s1 s01 neg1 ip1 fp1 e1 rest1 c2 u2 o2 s2 s02 neg2 ip2 fp2 e2 rest2 G1 A1 N1 B1 G2 A2 N2 B2 L.
  destruct (number_near c1 u1 t o1 s1 s01 neg1 ip1 fp1 e1 rest1 G1 A1 N1 B1) as (b1 & x1 & E1 & R1).
  destruct (number_near c2 u2 t o2 s2 s02 neg2 ip2 fp2 e2 rest2 G2 A2 N2 B2) as (b2 & x2 & E2 & R2).
  pose proof (number_value_nonneg _ _ _ _ _ _ _ N1) as P1. pose proof (number_value_nonneg _ _ _ _ _ _ _ N2) as P2.
  exists b1, x1, b2, x2. split; [exact E1|]. split; [exact E2|].
  pose proof (near_range _ _ _ R1) as I1. pose proof (near_range _ _ _ R2) as I2.
  rewrite inf_inf. split; [exact I1|]. split; [exact I2|].
  clear - L P1 P2 R1 R2 I1 I2.
  revert L P1 P2 R1 R2. generalize (number_value ip1 fp1 e1) (number_value ip2 fp2 e2). intros y1 y2 L P1 P2 R1 R2.
  pose proof (magnitude_nonneg t b1 (proj1 I1)) as M1. pose proof (magnitude_nonneg t b2 (proj1 I2)) as M2.
  unfold signed_value, float_value in *. destruct neg1, neg2.
  - assert (LE : b2 <= b1) by (apply (near_mono t y2 y1); [lra|assumption|assumption]).
    apply Qopp_le_compat. apply magnitude_le. lia.
  - lra.
  - assert (Z1 : (y1 == 0)%Q) by lra. assert (Z2 : (y2 == 0)%Q) by lra.
    rewrite (near_zero t y1 b1 Z1 R1), (near_zero t y2 b2 Z2 R2), magnitude_0. discriminate.
  - assert (LE : b1 <= b2) by (apply (near_mono t y1 y2); [lra|assumption|assumption]).
    apply magnitude_le. lia.
Qed.
Print Assumptions from_chars_monotone.

(** "-1e999" is not above "7e4": minus infinity and 70000. *)
Example monotone_example :
  number (rules_of cfg_x86_64 general) text_7e4 false [55] [] 4 [] /\
  number (rules_of cfg_x86_64 general) (45 :: text_1e999 false) true [49] [] 999 [] /\
  good_text cfg_x86_64 Char_s general text_7e4 /\ good_text cfg_x86_64 Char_s general (45 :: text_1e999 false) /\
  exponent_bounded text_7e4 4 /\ exponent_bounded (45 :: text_1e999 false) 999 /\
  Qle (signed_value true (number_value [49] [] 999)) (signed_value false (number_value [55] [] 4)).
Proof.
  split; [exact number_7e4|]. split.
  { destruct (number_1e999 false) as (s1 & s2 & hp & s3 & SG & H). exists s1, s2, hp, s3. split; [|exact H].
    inversion SG; subst. apply signed_minus. }
  split; [exact good_7e4|]. split; [apply ascii_good; [repeat constructor; lia|vm_compute; discriminate|reflexivity]|].
  split; [right; reflexivity|]. split; [right; reflexivity|]. vm_compute. discriminate.
Qed.

(** ** C27: exact decimals and enough digits *)
Theorem from_chars_exact :
  forall (c : cfg) (u : uc) (t : ftype) (o : options) (s s0 : list Z)
         (neg : bool) (ip fp : list Z) (e : Z) (rest : list Z) (b : Z),
  good_text c u o s -> starts_at c o s s0 ->
  number (rules_of c o) s0 neg ip fp e rest -> exponent_bounded s e ->
  0 <= b < infinity (format_of t) ->
  (number_value ip fp e == magnitude (format_of t) b)%Q ->
  from_chars_float_advanced c u t s o =
    Ok {| r_ptr := rest; r_ec := Success; r_value := Some (with_sign (format_of t) neg b) |}.
Proof.
  intros c u t o s s0 neg ip fp e rest b G SA N EB RB EQ.
  destruct (number_near_code c u t o s s0 neg ip fp e rest G SA N EB) as (a & x & E & R & CX).
  rewrite inf_inf in RB.
  assert (AB : a = b); [|subst a; rewrite E, (CX ltac:(lia)); replace (_ && (b =? 0)) with false; [reflexivity|];
    destruct (Z.eqb_spec b 0) as [->|]; [|rewrite andb_false_r; reflexivity];
    rewrite magnitude_0 in EQ; destruct (Z.ltb_spec 0 (digits_value (ip ++ fp))) as [L|L]; [|reflexivity];
    exfalso; apply (number_value_pos ip fp e) in L; lra].
  apply (near_strict t _ a b R ltac:(lia)). intros b' RB' NE.
  rewrite EQ. setoid_replace (magnitude (format_of t) b - magnitude (format_of t) b)%Q with 0%Q by ring.
  change (Qabs 0) with 0%Q. destruct (Z_lt_le_dec b' b) as [H|H].
  - pose proof (magnitude_lt t b' b ltac:(lia)). apply Qabs_case; intros; lra.
  - pose proof (magnitude_lt t b b' ltac:(lia)). apply Qabs_case; intros; lra.
Qed.
Print Assumptions from_chars_exact.

Theorem from_chars_strictly_closest :
  forall (c : cfg) (u : uc) (t : ftype) (o : options) (s s0 : list Z)
         (neg : bool) (ip fp : list Z) (e : Z) (rest : list Z) (b : Z),
  good_text c u o s -> starts_at c o s s0 ->
  number (rules_of c o) s0 neg ip fp e rest -> exponent_bounded s e ->
  0 <= b <= infinity (format_of t) ->
  (forall b', 0 <= b' <= infinity (format_of t) -> b' <> b ->
     (Qabs (number_value ip fp e - magnitude (format_of t) b) <
      Qabs (number_value ip fp e - magnitude (format_of t) b'))%Q) ->
  exists x, from_chars_float_advanced c u t s o =
    Ok {| r_ptr := rest; r_ec := x; r_value := Some (with_sign (format_of t) neg b) |} /\
    (b < infinity (format_of t) -> (x = OutOfRange <-> (0 < number_value ip fp e)%Q /\ b = 0) /\
                                   (x = Success <-> ~ ((0 < number_value ip fp e)%Q /\ b = 0))).
Proof.
  intros c u t o s s0 neg ip fp e rest b G SA N EB RB H.
  destruct (number_near_code c u t o s s0 neg ip fp e rest G SA N EB) as (a & x & E & R & CX).
  rewrite inf_inf in RB, H |- *. assert (a = b) by exact (near_strict t _ a b R RB H). subst a.
  exists x. split; [exact E|]. intros LB. rewrite (CX LB). rewrite (number_value_pos ip fp e).
  destruct (Z.ltb_spec 0 (digits_value (ip ++ fp))) as [L|L]; [destruct (Z.eqb_spec b 0) as [B|B]|]; cbn [andb];
    split; split; intros HH; try tauto; try discriminate; try (exfalso; lia). clear - L. lia.
Qed.
Print Assumptions from_chars_strictly_closest.

Lemma Qpower_10_pos k : (0 < Qpower 10 k)%Q.
Proof. rewrite qpow_Qpower10. apply qpow_pos. lia. Qed.

(** Printing a finite nonzero float with 17 (double), 9 (float), 5 (float16) or
    4 (bfloat16) significant digits and parsing gives it back. *)
Theorem from_chars_round_trip :
  forall (c : cfg) (u : uc) (t : ftype) (o : options) (s s0 : list Z)
         (neg : bool) (ip fp : list Z) (e : Z) (rest : list Z) (b : Z),
  good_text c u o s -> starts_at c o s s0 ->
  number (rules_of c o) s0 neg ip fp e rest -> exponent_bounded s e ->
  0 < b < infinity (format_of t) ->
  printed (max_digits10 (format_of t)) (magnitude (format_of t) b) (number_value ip fp e) ->
  from_chars_float_advanced c u t s o =
    Ok {| r_ptr := rest; r_ec := Success; r_value := Some (with_sign (format_of t) neg b) |}.
Proof.
  intros c u t o s s0 neg ip fp e rest b G SA N EB RB (k & K1 & K2).
  destruct (number_near_code c u t o s s0 neg ip fp e rest G SA N EB) as (a & x & E & R & CX).
  rewrite inf_inf in RB.
  assert (AB : a = b); [|subst a; rewrite E, (CX ltac:(lia)); destruct (Z.eqb_spec b 0) as [B0|];
    [exfalso; lia|rewrite andb_false_r; reflexivity]].
  apply (near_relative t _ a b R ltac:(lia)). clear - K1 K2.
  revert K1 K2. generalize (magnitude (format_of t) b) (number_value ip fp e). intros v y K1 K2.
  replace (k + 1 - max_digits10 (format_of t)) with (k + (1 - max_digits10 (format_of t))) in K2 by ring.
  rewrite Qpower_plus in K2 by discriminate.
  pose proof (Qpower_10_pos k) as PK.
  set (P := Qpower 10 k) in *. clearbody P. set (D := Qabs (y - v)) in *. clearbody D.
  destruct t; cbn [format_of binary64 binary32 binary16 bfloat16 max_digits10 frac_bits mant_bits] in *;
   match type of K2 with (D <= (1 # 2) * (P * ?q))%Q =>
     match goal with |- (D * inject_Z ?m < v)%Q =>
     let q' := eval vm_compute in q in let m' := eval vm_compute in (inject_Z m) in
     change q with q' in K2; change (inject_Z m) with m'; lra end end.
Qed.
Print Assumptions from_chars_round_trip.

(** C27's three theorems: "2.98023223876953125e-8" is 2^-25, code 998 * 2^52 as a
    double; it is a decimal of at most 17 digits that is closest to it. *)
Example round_trip_example :
  let v := number_value [50] [57; 56; 48; 50; 51; 50; 50; 51; 56; 55; 54; 57; 53; 51; 49; 50; 53] (-8) in
  let b := 998 * 2 ^ 52 in
  0 < b < infinity binary64 /\ Qeq v (magnitude binary64 b) /\
  printed (max_digits10 binary64) (magnitude binary64 b) v /\
  from_chars_float_advanced cfg_x86_64 Char_s F64 text_2_98 general =
    Ok {| r_ptr := []; r_ec := Success; r_value := Some b |}.
Proof.
  intros v b. split; [split; reflexivity|]. split; [vm_compute; reflexivity|]. split.
  - exists (-8). split; vm_compute; discriminate.
  - vm_compute. reflexivity.
Qed.

(** [from_chars_strictly_closest]: the decimal 7e4 is closer to the double 70000
    than to any other. *)
Example strictly_closest_example :
  let b := 4679546776582094848 in
  number (rules_of cfg_x86_64 general) text_7e4 false [55] [] 4 [] /\
  0 <= b <= infinity (format_of F64) /\
  (forall b', 0 <= b' <= infinity (format_of F64) -> b' <> b ->
     Qlt (Qabs (number_value [55] [] 4 - magnitude (format_of F64) b))
         (Qabs (number_value [55] [] 4 - magnitude (format_of F64) b'))) /\
  from_chars_float_advanced cfg_x86_64 Char_s F64 text_7e4 general =
    Ok {| r_ptr := []; r_ec := Success; r_value := Some b |}.
Proof.
  intros b. split; [exact number_7e4|]. split; [split; vm_compute; discriminate|]. split; [|vm_compute; reflexivity].
  intros b' RB' NE. assert (EQ : Qeq (number_value [55] [] 4) (magnitude (format_of F64) b)) by (vm_compute; reflexivity).
  rewrite EQ. setoid_replace (magnitude (format_of F64) b - magnitude (format_of F64) b)%Q with 0%Q by ring.
  rewrite inf_inf in RB'. assert (BI : b <= inf_code F64) by (vm_compute; discriminate). assert (B0 : 0 <= b) by (vm_compute; discriminate).
  change (Qabs 0) with 0%Q. destruct (Z_lt_le_dec b' b) as [H|H].
  - pose proof (magnitude_lt F64 b' b ltac:(lia)). apply Qabs_case; intros; lra.
  - pose proof (magnitude_lt F64 b b' ltac:(lia)). apply Qabs_case; intros; lra.
Qed.

(** ** C28: exponents of any size *)
Theorem from_chars_huge_exponent :
  forall (c : cfg) (u : uc) (t : ftype) (o : options) (s s0 : list Z)
         (neg : bool) (ip fp : list Z) (e : Z) (rest : list Z),
  good_text c u o s -> starts_at c o s s0 ->
  number (rules_of c o) s0 neg ip fp e rest -> exponent_bounded s e ->
  let report x b := from_chars_float_advanced c u t s o =
      Ok {| r_ptr := rest; r_ec := x; r_value := Some (with_sign (format_of t) neg b) |} in
  (0 < digits_value (ip ++ fp) -> 309 <= e - Z.of_nat (length fp) ->
     report OutOfRange (infinity (format_of t))) /\
  (0 < digits_value (ip ++ fp) -> e + Z.of_nat (length ip) <= - 343 -> report OutOfRange 0).
Proof.
  intros c u t o s s0 neg ip fp e rest G SA N EB report.
  destruct (float_number c u t o s s0 neg ip fp e rest (good_text_ok _ _ _ _ G) SA N) as (b & x & E & NR & (_ & OE)).
  { destruct EB; [right|left]; assumption. }
  destruct (number_digits _ _ _ _ _ _ _ N) as (AI & AF & _).
  assert (AD : all_digits (ip ++ fp)) by (apply Forall_app; split; assumption).
  pose proof (digits_value_range _ AD) as VR. rewrite app_length, Nat2Z.inj_add in VR.
  assert (PB : -342 <= smallest_power_of_ten t /\ largest_power_of_ten t <= 308) by (destruct t; cbn; lia). unfold report.
  set (W := digits_value (ip ++ fp)) in *. clearbody W. split; intros HW HE.
  - assert (B : b = inf_code t).
    { eapply huge_near; [|apply near_near0; exact NR]. apply dec_ge_pow; lia. }
    rewrite E, inf_inf, <- B. rewrite OE.
    + unfold range_code. rewrite B, Z.eqb_refl, orb_true_r. reflexivity.
    + intros (_ & _ & _ & _ & _ & Q). lia.
  - assert (B : b = 0).
    { apply (tiny_near t (dec W (e - Z.of_nat (length fp))) b); [apply dec_nonneg; lia| |apply near_near0; exact NR].
      apply (dec_le_pow _ _ (Z.of_nat (length ip) + Z.of_nat (length fp))); lia. }
    rewrite E, B. rewrite OE.
    + unfold range_code. rewrite B. destruct (Z.ltb_spec 0 W); [reflexivity|lia].
    + intros (_ & _ & _ & _ & _ & Q). lia.
Qed.
Print Assumptions from_chars_huge_exponent.

(** "1e999" and "1e-999" again. *)
Example huge_exponent_example :
  number (rules_of cfg_x86_64 general) (text_1e999 false) false [49] [] 999 [] /\ 0 < digits_value ([49] ++ []) /\
  309 <= 999 - Z.of_nat (length (@nil Z)) /\
  number (rules_of cfg_x86_64 general) (text_1e999 true) false [49] [] (-999) [] /\
  -999 + Z.of_nat (length [49]) <= -343.
Proof.
  split; [exact (number_1e999 false)|]. split; [reflexivity|]. split; [vm_compute; discriminate|].
  split; [exact (number_1e999 true)|]. vm_compute. discriminate.
Qed.

(** Zero is zero whatever its exponent is, with no bound on the text. *)
Theorem from_chars_zero :
  forall (c : cfg) (u : uc) (t : ftype) (o : options) (s s0 : list Z)
         (neg : bool) (ip fp : list Z) (e : Z) (rest : list Z),
  good_text c u o s -> starts_at c o s s0 ->
  number (rules_of c o) s0 neg ip fp e rest ->
  digits_value (ip ++ fp) = 0 ->
  from_chars_float_advanced c u t s o =
    Ok {| r_ptr := rest; r_ec := Success; r_value := Some (with_sign (format_of t) neg 0) |}.
Proof.
  intros c u t o s s0 neg ip fp e rest G SA N HW.
  destruct (float_number_clamped c u t o s s0 neg ip fp e rest (good_text_ok _ _ _ _ G) SA N) as (e' & b & x & _ & E & NR & (O1 & O2)).
  rewrite HW in NR, O1, O2.
  assert (B : b = 0). { apply (near_zero t _ b) in NR; [exact NR|]. unfold dec. change (inject_Z 0) with 0%Q. ring. }
  subst b. rewrite E. replace x with Success; [reflexivity|].
  destruct (quiet_dec c t 0 (e' - Z.of_nat (length fp))) as [Q|Q]; [symmetry; apply O1; exact Q|].
  rewrite (O2 Q). unfold range_code. pose proof (inf_code_pos t). destruct (Z.eqb_spec 0 (inf_code t)); [lia|reflexivity].
Qed.
Print Assumptions from_chars_zero.

(** "0e999". *)
Example zero_example :
  let s := 48 :: tl (text_1e999 false) in
  good_text cfg_x86_64 Char_s general s /\ number (rules_of cfg_x86_64 general) s false [48] [] 999 [] /\
  digits_value ([48] ++ []) = 0 /\
  from_chars_float_advanced cfg_x86_64 Char_s F64 s general = Ok {| r_ptr := []; r_ec := Success; r_value := Some 0 |}.
Proof.
  intros s. split; [apply ascii_good; [repeat constructor; lia|vm_compute; discriminate|reflexivity]|]. split.
  { exists s, (tl s), false, (tl s). split; [apply signed_none; cbn; lia|].
    split; [split; [reflexivity|]; split; [repeat constructor|]; cbn; discriminate|].
    split; [apply fraction_none; cbn; lia|]. split; [cbn; discriminate|].
    apply (exponent_some _ _ [57; 57; 57] false [57; 57; 57] [57; 57; 57]).
    - apply mark_e; [reflexivity|left; reflexivity].
    - apply exp_nosign; cbn; lia.
    - split; [reflexivity|]. split; [repeat constructor|exact I].
    - discriminate. }
  split; [reflexivity|]. vm_compute. reflexivity.
Qed.

(** The bound on the text is needed: an exponent is not read to its end.
    "0.000...01e9999999999" with 9999999999 digits after the point is 1; the
    library stores 0 and reports result_out_of_range. *)
Lemma all_digits_repeat n : all_digits (repeat 48 n).
Proof. induction n; constructor; [reflexivity|assumption]. Qed.
Lemma digits_value_zeros n : digits_value (repeat 48 n) = 0.
Proof. induction n; [reflexivity|]. cbn [repeat]. rewrite digits_value_cons, IHn. lia. Qed.

Definition giant_text (n : nat) : list Z :=
  48 :: 46 :: (repeat 48 n ++ [49]) ++ 101 :: repeat 57 10.

Lemma giant_number n : number (rules_of cfg_x86_64 general) (giant_text n) false [48] (repeat 48 n ++ [49]) 9999999999 [].
Proof.
  exists (giant_text n), (tl (giant_text n)), true, (101 :: repeat 57 10).
  split; [apply signed_none; cbn; lia|].
  split; [split; [reflexivity|]; split; [repeat constructor|]; cbn; discriminate|].
  split.
  { apply (fraction_some (rules_of cfg_x86_64 general)). split; [reflexivity|]. split; [|cbn; discriminate].
    apply Forall_app. split; [apply all_digits_repeat|repeat constructor]. }
  split; [cbn; discriminate|].
  apply (exponent_some _ _ (repeat 57 10) false (repeat 57 10) (repeat 57 10)).
  - apply mark_e; [reflexivity|left; reflexivity].
  - apply exp_nosign. cbn. lia.
  - split; [rewrite app_nil_r; reflexivity|]. split; [repeat constructor|exact I].
  - discriminate.
Qed.

Theorem from_chars_huge_exponent_refuted :
  exists (s ip fp : list Z) (e : Z),
  good_text cfg_x86_64 Char_s general s /\
  number (rules_of cfg_x86_64 general) s false ip fp e [] /\
  (number_value ip fp e == 1)%Q /\
  from_chars_float_advanced cfg_x86_64 Char_s F64 s general =
    Ok {| r_ptr := []; r_ec := OutOfRange; r_value := Some 0 |}.
Proof.
  assert (EN : exists n, Z.of_nat n = 9999999998) by (exists (Z.to_nat 9999999998); apply Z2Nat.id; lia).
  destruct EN as (n & EN). set (s := giant_text n). pose proof (giant_number n) as NUM. fold s in NUM.
  assert (G : good_text cfg_x86_64 Char_s general s).
  { split; [|split; [discriminate|split; [|reflexivity]]].
    - unfold s, giant_text. do 2 (constructor; [split; vm_compute; discriminate|]).
      apply Forall_app. split; [apply Forall_app; split|].
      + clear. induction n; constructor; [split; vm_compute; discriminate|assumption].
      + constructor; [split; vm_compute; discriminate|constructor].
      + repeat (constructor; [split; vm_compute; discriminate|]). constructor.
    - unfold s, giant_text. cbn [length]. rewrite app_length, app_length, repeat_length. cbn [length repeat]. lia. }
  assert (W1 : digits_value ([48] ++ repeat 48 n ++ [49]) = 1).
  { cbn [app]. rewrite digits_value_cons, digits_value_app, digits_value_zeros. rewrite Z.mul_0_l, Z.add_0_l. reflexivity. }
  assert (LF : Z.of_nat (length (repeat 48 n ++ [49])) = 9999999999) by (rewrite app_length, repeat_length; cbn [length]; lia).
  exists s, [48], (repeat 48 n ++ [49]), 9999999999. split; [exact G|]. split; [exact NUM|]. split.
  - unfold number_value. rewrite W1, LF. reflexivity.
  - destruct (float_number_clamped cfg_x86_64 Char_s F64 general s s false _ _ _ _ (good_text_ok _ _ _ _ G) eq_refl NUM)
      as (e' & b & x & (_ & CL & _) & E & NR & (_ & OE)).
    rewrite W1, LF in NR, OE.
    assert (B : b = 0).
    { apply (tiny_near F64 (dec 1 (e' - 9999999999)) b); [apply dec_nonneg; lia| |apply near_near0; exact NR].
      change (smallest_power_of_ten F64) with (-342). apply (dec_le_pow _ _ 1); try lia. }
    subst b. rewrite E, OE; [reflexivity|]. intros (Q & _). discriminate Q.
Qed.
Print Assumptions from_chars_huge_exponent_refuted.

(** ** C29: a minus in front *)
Lemma code_range t b : 0 <= b <= inf_code t -> 0 <= b < 2 ^ (frac_bits (format_of t) + exp_bits (format_of t)).
Proof. intros H. assert (inf_code t < 2 ^ (frac_bits (format_of t) + exp_bits (format_of t))) by (destruct t; reflexivity). lia. Qed.

Lemma special_code_range t k : 0 <= special_code t k < 2 ^ (frac_bits (format_of t) + exp_bits (format_of t)).
Proof. destruct t, k; split; vm_compute; congruence. Qed.

Lemma good_minus c u o w s0 : good_text c u o (w ++ 45 :: s0) -> good_text c u o (w ++ s0).
Proof.
  intros (A & B & L & D). apply Forall_app in A. destruct A as (A1 & A2). inversion A2; subst.
  split; [apply Forall_app; split; assumption|]. split.
  - intros E. specialize (B E). apply Forall_app in B. destruct B as (B1 & B2). inversion B2; subst. apply Forall_app; split; assumption.
  - rewrite app_length in *. cbn [length] in L. split; [lia|exact D].
Qed.

Theorem from_chars_minus :
  forall (c : cfg) (u : uc) (t : ftype) (o : options) (w s0 rest : list Z) (x : ec) (v : Z),
  good_text c u o (w ++ 45 :: s0) -> starts_at c o (w ++ s0) s0 -> unsigned s0 ->
  from_chars_float_advanced c u t (w ++ s0) o = Ok {| r_ptr := rest; r_ec := x; r_value := Some v |} ->
  0 <= v < 2 ^ (frac_bits (format_of t) + exp_bits (format_of t)) /\
  from_chars_float_advanced c u t (w ++ 45 :: s0) o =
    Ok {| r_ptr := rest; r_ec := x; r_value := Some (with_sign (format_of t) true v) |}.
Proof.
  intros c u t o w s0 rest x v G SA US E.
  pose proof (good_minus c u o w s0 G) as G0.
  assert (SA' : starts_at c o (w ++ 45 :: s0) (45 :: s0)).
  { unfold starts_at in *. destruct (skips_space c o).
    - destruct SA as (w' & E' & W & N). apply app_inv_tail in E'. subst w'.
      exists w. split; [reflexivity|]. split; [exact W|]. cbn. discriminate.
    - assert (w = []) by (apply (app_inv_tail s0); cbn; congruence). subst w. reflexivity. }
  destruct (number_or_not c u o _ s0 G0 SA) as [(neg & ip & fp & e & r & N)|NN].
  - assert (NEG : neg = false).
    { destruct N as (s1 & s2 & hp & s3 & SG & _). inversion SG; subst; try reflexivity. exfalso. cbn in US. tauto. }
    subst neg. pose proof (number_negate _ _ _ _ _ _ US N) as N'.
    destruct (float_same c t ip fp e o u _ _ _ _ o u _ _ _ _ G0 SA N G SA' N') as (b & y & RB & E1 & E2).
    rewrite E1 in E. injection E as <- <- <-. rewrite with_sign_false. split; [apply code_range; exact RB|exact E2].
  - destruct (other_main c u t o _ s0 G0 SA NN) as [(_ & E')|[(_ & _ & E')|(neg & k & r & AS & SP & E')]];
      rewrite E' in E; try discriminate E. injection E as <- <- <-.
    destruct (special_negate _ _ _ _ _ US SP) as (-> & SP').
    rewrite with_sign_false. split; [apply special_code_range|].
    destruct (other_main c u t o _ _ G SA' (special_not_number _ _ _ _ _ _ SP')) as [(A & _)|[(_ & NS & _)|(n' & k' & r' & _ & SP2 & E2)]].
    + congruence.
    + destruct (NS _ _ _ SP').
    + destruct (special_unique _ _ _ _ _ _ _ _ SP' SP2) as (<- & <- & <-). exact E2.
Qed.
Print Assumptions from_chars_minus.

Lemma minus_zero_example :
  from_chars_float cfg_x86_64 Char_s F64 [45; 48; 46; 48; 101; 53] 5 =
    Ok {| r_ptr := []; r_ec := Success; r_value := Some (2 ^ 63) |}.
Proof. vm_compute. reflexivity. Qed.

(** ** C31: std::float32_t, std::float64_t *)
Theorem from_chars_fixed_width_partial :
  forall (c : cfg) (u : uc) (t : ftype) (s : list Z) (fmt : Z) (r : result),
  from_chars_float c u t s fmt = Ok r -> r_ec r <> InvalidArgument ->
  good_text c u {| o_format := fmt; o_decimal_point := 46; o_base := 10 |} s ->
  from_chars_fixed_width c u t s fmt = Ok r.
Proof.
  intros c u t s fmt r E NI G. unfold from_chars_fixed_width. rewrite E. cbn [bind].
  destruct r as [p x [v|]]; [reflexivity|]. exfalso. cbn [r_ec] in NI.
  unfold from_chars_float in E. set (o := {| o_format := fmt; o_decimal_point := 46; o_base := 10 |}) in *.
  destruct (starts_exists c o s) as (s0 & SA).
  destruct (number_or_not c u o _ s0 G SA) as [(neg & ip & fp & e & rr & N)|NN].
  - destruct (float_number_clamped c u t o s s0 neg ip fp e rr (good_text_ok _ _ _ _ G) SA N) as (e' & b & y & _ & E' & _).
    rewrite E' in E. discriminate E.
  - destruct (other_main c u t o s s0 G SA NN) as [(_ & E')|[(_ & _ & E')|(neg & k & rr & AS & SP & E')]];
      rewrite E' in E; congruence.
Qed.
Print Assumptions from_chars_fixed_width_partial.

(** The pointer and the error code always agree ... *)
Theorem from_chars_fixed_width_report :
  forall (c : cfg) (u : uc) (t : ftype) (s : list Z) (fmt : Z) (r : result),
  from_chars_float c u t s fmt = Ok r ->
  exists v, from_chars_fixed_width c u t s fmt = Ok {| r_ptr := r_ptr r; r_ec := r_ec r; r_value := v |}.
Proof. intros c u t s fmt r E. unfold from_chars_fixed_width. rewrite E. cbn [bind]. eauto. Qed.
Print Assumptions from_chars_fixed_width_report.

Example fixed_width_example :
  from_chars_float cfg_x86_64 Char_s F32 text_2_98 5 =
    Ok {| r_ptr := []; r_ec := Success; r_value := Some (102 * 2 ^ 23) |} /\
  from_chars_fixed_width cfg_x86_64 Char_s F32 text_2_98 5 =
    Ok {| r_ptr := []; r_ec := Success; r_value := Some (102 * 2 ^ 23) |}.
Proof. split; vm_compute; reflexivity. Qed.

(** ... but on invalid input the destination is overwritten with zero: "x". *)
Theorem from_chars_fixed_width_refuted :
  exists (s : list Z),
  from_chars_float cfg_x86_64 Char_s F64 s 5 = Ok {| r_ptr := s; r_ec := InvalidArgument; r_value := None |} /\
  from_chars_fixed_width cfg_x86_64 Char_s F64 s 5 = Ok {| r_ptr := s; r_ec := InvalidArgument; r_value := Some 0 |}.
Proof. exists [120]. split; vm_compute; reflexivity. Qed.
Print Assumptions from_chars_fixed_width_refuted.

(** ** C22: integer_times_pow10(W, Q) and the text WeQ *)
Lemma scientific_number c ds neg qs :
  all_digits ds -> ds <> [] -> all_digits qs -> qs <> [] ->
  number (rules_of c general) (scientific_text ds neg qs) false ds []
    (if neg then - digits_value qs else digits_value qs) [].
Proof.
  intros A1 N1 A2 N2. unfold scientific_text.
  exists (ds ++ 101 :: (if neg then [45] else []) ++ qs), (101 :: (if neg then [45] else []) ++ qs), false,
    (101 :: (if neg then [45] else []) ++ qs).
  split.
  { apply signed_none. destruct ds as [|d ds]; [congruence|]. inversion A1 as [|? ? HD]; subst. apply digit_true in HD. cbn. lia. }
  split; [split; [reflexivity|]; split; [exact A1|]; cbn; discriminate|].
  split; [apply fraction_none; cbn; lia|].
  split; [cbn; rewrite app_nil_r; exact N1|].
  apply (exponent_some _ _ ((if neg then [45] else []) ++ qs) neg qs qs).
  - apply mark_e; [reflexivity|left; reflexivity].
  - destruct neg; cbn [app]; [apply exp_minus|apply exp_nosign].
    destruct qs as [|d qs]; [congruence|]. inversion A2 as [|? ? HD]; subst. apply digit_true in HD. cbn. lia.
  - split; [rewrite app_nil_r; reflexivity|]. split; [exact A2|exact I].
  - exact N2.
Qed.

Lemma scientific_good c u ds neg qs :
  all_digits ds -> all_digits qs -> Z.of_nat (length (scientific_text ds neg qs)) <= 2 ^ 59 ->
  good_text c u general (scientific_text ds neg qs).
Proof.
  intros A1 A2 L. apply ascii_good; [|exact L|reflexivity].
  assert (D : forall l, all_digits l -> Forall (fun ch => 0 <= ch < 128) l).
  { intros l. apply Forall_impl. intros a HA. apply digit_true in HA. lia. }
  unfold scientific_text. apply Forall_app. split; [apply D; exact A1|]. constructor; [lia|].
  apply Forall_app. split; [|apply D; exact A2]. destruct neg; [constructor; [lia|constructor]|constructor].
Qed.

Lemma scientific_start c ds neg qs : all_digits ds -> ds <> [] ->
  starts_at c general (scientific_text ds neg qs) (scientific_text ds neg qs).
Proof.
  intros A N. unfold starts_at. destruct (skips_space c general); [|reflexivity].
  exists []. split; [reflexivity|]. split; [constructor|]. destruct ds as [|d ds]; [congruence|].
  inversion A as [|? ? HD]; subst. apply digit_true in HD. cbn. unfold space.
  destruct (Z.leb_spec 9 d), (Z.leb_spec d 13), (Z.eqb_spec d 32); cbn; lia || discriminate.
Qed.

Theorem integer_times_pow10_agrees :
  forall (c : cfg) (u : uc) (t : ftype) (ds : list Z) (neg : bool) (qs : list Z) (W Q : Z),
  all_digits ds -> ds <> [] -> all_digits qs -> qs <> [] ->
  W = digits_value ds -> Q = (if neg then - digits_value qs else digits_value qs) ->
  0 <= W < 2 ^ 64 ->
  Z.of_nat (length (scientific_text ds neg qs)) <= 2 ^ 59 ->
  exponent_bounded (scientific_text ds neg qs) Q ->
  t <> F16 \/ W < 10 ^ 19 ->
  exists b x,
    from_chars_float c u t (scientific_text ds neg qs) 5 =
      Ok {| r_ptr := []; r_ec := x; r_value := Some b |} /\
    integer_times_pow10_u c t W Q = Ok b.
Proof.
  intros c u t ds neg qs W Q A1 N1 A2 N2 EW EQ HW LEN EB HT.
  pose proof (scientific_number c ds neg qs A1 N1 A2 N2) as NUM. rewrite <- EQ in NUM.
  destruct (number_near c u t general _ _ _ _ _ _ _ (scientific_good c u ds neg qs A1 A2 LEN)
    (scientific_start c ds neg qs A1 N1) NUM EB) as (b & x & E & NR).
  rewrite with_sign_false in E. exists b, x. split; [exact E|].
  assert (NR' : near t (dec W Q) b).
  { eapply near_comp; [|exact NR]. rewrite number_value_dec, app_nil_r, <- EW. cbn [length]. change (Z.of_nat 0) with 0.
    rewrite Z.sub_0_r. reflexivity. }
  destruct (pow10_u_exact c t W Q HW) as (b' & EP & CF). rewrite EP. f_equal.
  apply (near_unique t (dec W Q)); [|exact NR'].
  destruct HT as [HT|HT].
  - apply near_intro; [intros b1 (F & _); contradiction|]. destruct CF as [(F & _)|[_ CF]]; [contradiction|exact CF].
  - apply cf_short; [|exact CF]. exists W, Q. split; [lia|reflexivity].
Qed.
Print Assumptions integer_times_pow10_agrees.

(** 1844674407370955161e-5. *)
Example pow10_agrees_example :
  let ds := [49;56;52;52;54;55;52;52;48;55;51;55;48;57;53;53;49;54;49] in
  all_digits ds /\ digits_value ds = 1844674407370955161 /\
  from_chars_float cfg_x86_64 Char_s F64 (scientific_text ds true [53]) 5 =
    Ok {| r_ptr := []; r_ec := Success; r_value := Some 4805559569259818381 |} /\
  integer_times_pow10_u cfg_x86_64 F64 1844674407370955161 (-5) = Ok 4805559569259818381.
Proof. split; [repeat constructor|]. split; [reflexivity|]. split; vm_compute; reflexivity. Qed.

(** float16, W with 20 digits: 11026859283447265625e-25 = 37 * 2^-25 is
    a subnormal tie; from_chars stores 18, integer_times_pow10 returns 19. *)
Definition tie_digits : list Z :=
  [49; 49; 48; 50; 54; 56; 53; 57; 50; 56; 51; 52; 52; 55; 50; 54; 53; 54; 50; 53].
Theorem integer_times_pow10_agrees_refuted :
  digits_value tie_digits = 11026859283447265625 /\ digits_value [50; 53] = 25 /\
  from_chars_float cfg_x86_64 Char_s F16 (scientific_text tie_digits true [50; 53]) 5 =
    Ok {| r_ptr := []; r_ec := Success; r_value := Some 18 |} /\
  integer_times_pow10_u cfg_x86_64 F16 11026859283447265625 (-25) = Ok 19.
Proof. repeat split; vm_compute; reflexivity. Qed.
Print Assumptions integer_times_pow10_agrees_refuted.

(** ** C20 for float16, exactly: to nearest; subnormal ties go up, all other
    ties to even. *)
Theorem integer_times_pow10_float16_exact :
  forall (c : cfg) (m e : Z), 0 <= m < 2 ^ 64 ->
  exists b, integer_times_pow10_u c F16 m e = Ok b /\
    nearest binary16 (decimal m e) b /\
    (forall b', subnormal_tie binary16 (decimal m e) b' -> b = b') /\
    ((forall b', ~ subnormal_tie binary16 (decimal m e) b') -> nearest_even binary16 (decimal m e) b).
Proof.
  intros c m e Hm. destruct (pow10_u_exact c F16 m e Hm) as (b & E & CF). exists b. split; [exact E|].
  assert (NB : nearest_but_subnormal_ties binary16 (decimal m e) b).
  { eapply nearest_but_comp; [symmetry; apply decimal_dec|]. apply (rounds_or_tie_spec F16).
    destruct CF as [T|[_ R]]; [right; exact T|left; exact R]. }
  split; [apply NB|].
  assert (CT : forall b', subnormal_tie binary16 (decimal m e) b' <-> sub_tie F16 (dec m e) b').
  { intros b'. split; intros T.
    - apply subnormal_tie_sub_tie. destruct T as (T1 & T2). split; [exact T1|]. rewrite <- decimal_dec. exact T2.
    - apply sub_tie_subnormal_tie in T. destruct T as (T1 & T2). split; [exact T1|]. rewrite decimal_dec. exact T2. }
  split.
  - intros b' T. apply CT in T. destruct CF as [T'|[N _]]; [eapply sub_tie_unique; eassumption|]. destruct (N b' T).
  - intros NT. eapply nearest_even_comp; [symmetry; apply decimal_dec|]. apply (rounds_nearest_even F16).
    destruct CF as [T|[_ R]]; [|exact R]. exfalso. apply (NT b). apply CT. exact T.
Qed.
Print Assumptions integer_times_pow10_float16_exact.
