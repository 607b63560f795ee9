(** Property C58: the texts read as a given number are exactly those whose value
    lies in its rounding interval - what programs that print the shortest text
    that reads back rely on. *)
From Verif Require Import Machine Config Chars Format ParseNumber DecToBin FromChars WordLemmas
  Rounding ComputeFloat SpecFloat SpecInterval FloatBridge Clinger Pow10 SpecGrammar SpecApi SpecRel Scan ParseSpec Special
  SlowPath ManyDigits Saturate FloatMaster FloatApi FloatRel Props_Pow10 Props_Float Props_Texts Props_Types Props_Narrow
  Props_Relations.
From Coq Require Import QArith Qabs Lqa.
Open Scope Z_scope.

(** ** Intervals of different numbers are disjoint *)
Lemma interval_disjoint t up x a b : 0 <= a < b -> b <= infinity (format_of t) ->
  rounding_interval (format_of t) up x a -> rounding_interval (format_of t) up x b -> False.
Proof.
  intros AB BI (_ & UA) (LB & _). specialize (UA ltac:(lia)). specialize (LB ltac:(lia)).
  set (M := magnitude (format_of t)) in *.
  pose proof (magnitude_le t a (b - 1) ltac:(lia)) as M1. fold M in M1.
  pose proof (magnitude_le t (a + 1) b ltac:(lia)) as M2. fold M in M2.
  destruct (Z.eq_dec b (a + 1)) as [->|NE].
  - replace (a + 1 - 1) with a in LB by lia. destruct UA as [UA|(UA & NU)]; destruct LB as [LB|(LB & U)]; try lra. tauto.
  - pose proof (magnitude_lt t (a + 1) b ltac:(lia)) as M3. fold M in M3.
    destruct UA as [UA|(UA & _)]; destruct LB as [LB|(LB & _)]; lra.
Qed.

Lemma interval_unique t up x a b : 0 <= a <= infinity (format_of t) -> 0 <= b <= infinity (format_of t) ->
  rounding_interval (format_of t) up x a -> rounding_interval (format_of t) up x b -> a = b.
Proof.
  intros RA RB IA IB. destruct (Z.lt_total a b) as [L|[E|L]]; [exfalso|exact E|exfalso].
  - exact (interval_disjoint t up x a b ltac:(lia) ltac:(lia) IA IB).
  - exact (interval_disjoint t up x b a ltac:(lia) ltac:(lia) IB IA).
Qed.

(** ** Nearest numbers *)
Lemma nearest_interval t (up : Z -> Prop) x b : nearest (format_of t) x b ->
  (0 < b -> Qeq (magnitude (format_of t) (b - 1) + magnitude (format_of t) b) (2 * x) -> up b) ->
  (b < infinity (format_of t) -> Qeq (2 * x) (magnitude (format_of t) b + magnitude (format_of t) (b + 1)) -> ~ up (b + 1)) ->
  rounding_interval (format_of t) up x b.
Proof.
  intros (RB & N) HL HU. split; intros L.
  - specialize (HL L). pose proof (closer_high _ _ _ (magnitude_lt t (b - 1) b ltac:(lia)) (N (b - 1) ltac:(lia))) as C.
    apply Qle_lteq in C. destruct C as [C|C]; [left; exact C|right; split; [exact C|exact (HL C)]].
  - specialize (HU L). pose proof (closer_low _ _ _ (magnitude_lt t b (b + 1) ltac:(lia)) (N (b + 1) ltac:(lia))) as C.
    apply Qle_lteq in C. destruct C as [C|C]; [left; exact C|right; split; [exact C|exact (HU C)]].
Qed.

Lemma nearest_even_nearest f x b : nearest_even f x b -> nearest f x b.
Proof.
  intros (RB & N). split; [exact RB|]. intros b' RB'. destruct (N b' RB') as [H|(H & _)]; [apply Qlt_le_weak, H|rewrite H; apply Qle_refl].
Qed.

(** A tie is only won by an even code. *)
Lemma tie_even t x b : nearest_even (format_of t) x b ->
  (0 < b -> Qeq (magnitude (format_of t) (b - 1) + magnitude (format_of t) b) (2 * x) -> Z.even b = true) /\
  (b < infinity (format_of t) -> Qeq (2 * x) (magnitude (format_of t) b + magnitude (format_of t) (b + 1)) -> Z.even b = true).
Proof.
  intros (RB & N). set (M := magnitude (format_of t)) in *. split; intros L E.
  - destruct (N (b - 1) ltac:(lia)) as [H|(_ & [H|H])]; [exfalso|exfalso; lia|exact H].
    pose proof (magnitude_lt t (b - 1) b ltac:(lia)) as M1. fold M in M1. clear - E H M1.
    revert H. do 2 apply Qabs_case; intros; lra.
  - destruct (N (b + 1) ltac:(lia)) as [H|(_ & [H|H])]; [exfalso|exfalso; lia|exact H].
    pose proof (magnitude_lt t b (b + 1) ltac:(lia)) as M1. fold M in M1. clear - E H M1.
    revert H. do 2 apply Qabs_case; intros; lra.
Qed.

Lemma even_succ b : Z.even b = true -> Z.even (b + 1) = true -> False.
Proof. intros H. rewrite Z.even_add, H. discriminate. Qed.

Lemma even_interval t x b : nearest_even (format_of t) x b -> rounding_interval (format_of t) ties_even x b.
Proof.
  intros N. destruct (tie_even t x b N) as (T1 & T2).
  apply nearest_interval; [exact (nearest_even_nearest _ _ _ N)|exact T1|].
  intros L E U. exact (even_succ b (T2 L E) U).
Qed.

(** ... for the tie rules of float16. *)
Lemma tie_interval (up : Z -> Prop) x b : (forall k, Z.even k = true -> up k) ->
  ((up b /\ subnormal_tie binary16 x b /\ nearest binary16 x b) \/
   (nearest_even binary16 x b /\ forall k, 1 <= k -> up k -> Z.even k = true \/ ~ subnormal_tie binary16 x k /\ k <= 2 ^ frac_bits binary16)) ->
  rounding_interval binary16 up x b.
Proof.
  intros HE. change binary16 with (format_of F16). intros [(U & (RB & T) & N)|(N & HU)].
  - apply nearest_interval; [exact N|intros; exact U|]. intros L E _.
    pose proof (magnitude_lt F16 (b - 1) (b + 1) ltac:(lia)) as M1. rewrite E in T. clear - M1 T. lra.
  - destruct (tie_even F16 x b N) as (T1 & T2). destruct N as (RB & N).
    apply nearest_interval; [apply nearest_even_nearest; split; assumption|intros L E; apply HE, T1; assumption|].
    intros L E U. destruct (HU (b + 1) ltac:(lia) U) as [EV|(NT & LE)]; [exact (even_succ b (T2 L E) EV)|].
    apply NT. split; [lia|]. replace (b + 1 - 1) with b by lia. exact E.
Qed.

Lemma near_interval_float16 x b : near F16 x b -> rounding_interval binary16 (short_subnormal_ties_up binary16 x) x b.
Proof.
  intros H. pose proof (nearest_of F16 x b H) as N. apply tie_interval; [intros; left; assumption|].
  destruct H as [(S & T)|(NT & R)].
  - left. apply sub_tie_subnormal_tie in T. split; [right; split; [apply T|apply nineteen_short, S]|]. split; [exact T|exact N].
  - right. split; [exact (rounds_nearest_even F16 x b R)|]. intros k K [E|(L & S)]; [left; exact E|right; split; [|exact L]].
    intros T. apply NT. split; [apply nineteen_short, S|exists k; apply subnormal_tie_sub_tie, T].
Qed.

Lemma cf_interval_float16 x b : cf_rounds F16 x b -> rounding_interval binary16 (subnormal_ties_up binary16) x b.
Proof.
  intros H. apply tie_interval; [intros; left; assumption|].
  destruct H as [T|(NT & R)].
  - left. apply sub_tie_subnormal_tie in T. split; [right; apply T|]. split; [exact T|].
    apply (rounds_or_tie_spec F16 x b). right. apply subnormal_tie_sub_tie, T.
  - right. split; [exact (rounds_nearest_even F16 x b R)|]. intros k K [E|L]; [left; exact E|right; split; [|exact L]].
    intros T. apply (NT k), subnormal_tie_sub_tie, T.
Qed.

Lemma interval_comp f up x y b : Qeq x y -> rounding_interval f up x b -> rounding_interval f up y b.
Proof. intros E (L & U). unfold rounding_interval. rewrite <- E. split; assumption. Qed.

(** ** C58, double, float and bfloat16: a number's value is what is read exactly
    if the text's value lies between the points half-way to its neighbours;
    half-way points count if the number's code is even. *)
Theorem from_chars_interval :
  forall (c : cfg) (u : uc) (t : ftype) (o : options) (s s0 : list Z)
         (neg : bool) (ip fp : list Z) (e : Z) (rest : list Z) (b : Z),
  t <> F16 -> good_text c u o s -> starts_at c o s s0 ->
  number (rules_of c o) s0 neg ip fp e rest -> exponent_bounded s e ->
  0 <= b <= infinity (format_of t) ->
  (exists x, from_chars_float_advanced c u t s o =
      Ok {| r_ptr := rest; r_ec := x; r_value := Some (with_sign (format_of t) neg b) |}) <->
  rounding_interval (format_of t) ties_even (number_value ip fp e) b.
Proof.
  intros c u t o s s0 neg ip fp e rest b NT G SA N EB RB.
  destruct (number_near_code c u t o s s0 neg ip fp e rest G SA N EB) as (a & x & E & R & _).
  pose proof (even_interval t _ _ (rounds_nearest_even t _ _ (near_not_F16 t _ _ NT R))) as I.
  pose proof (proj1 (nearest_of t _ _ R)) as RA.
  split.
  - intros (x' & E'). rewrite E in E'. assert (a = b); [|subst b; exact I].
    assert (W : with_sign (format_of t) neg a = with_sign (format_of t) neg b) by congruence.
    unfold with_sign in W. clear - W. lia.
  - intros I'. exists x. rewrite E. rewrite (interval_unique t _ _ a b RA RB I I'). reflexivity.
Qed.
Print Assumptions from_chars_interval.

(** C58, float16: the same, but half-way points between subnormal numbers whose
    decimal expansion has at most 19 digits belong to the larger one. *)
Theorem from_chars_interval_float16 :
  forall (c : cfg) (u : uc) (o : options) (s s0 : list Z)
         (neg : bool) (ip fp : list Z) (e : Z) (rest : list Z) (b : Z),
  good_text c u o s -> starts_at c o s s0 ->
  number (rules_of c o) s0 neg ip fp e rest -> exponent_bounded s e ->
  0 <= b <= infinity binary16 ->
  (exists x, from_chars_float_advanced c u F16 s o =
      Ok {| r_ptr := rest; r_ec := x; r_value := Some (with_sign binary16 neg b) |}) <->
  rounding_interval binary16 (short_subnormal_ties_up binary16 (number_value ip fp e)) (number_value ip fp e) b.
Proof.
  intros c u o s s0 neg ip fp e rest b G SA N EB RB.
  destruct (number_near_code c u F16 o s s0 neg ip fp e rest G SA N EB) as (a & x & E & R & _).
  pose proof (near_interval_float16 _ _ R) as I. pose proof (proj1 (nearest_of F16 _ _ R)) as RA.
  change (format_of F16) with binary16 in *.
  split.
  - intros (x' & E'). rewrite E in E'. assert (a = b); [|subst b; exact I].
    assert (W : with_sign binary16 neg a = with_sign binary16 neg b) by congruence.
    unfold with_sign in W. clear - W. lia.
  - intros I'. exists x. rewrite E. rewrite (interval_unique F16 _ _ a b RA RB I I'). reflexivity.
Qed.
Print Assumptions from_chars_interval_float16.

(** C58 for integer_times_pow10. *)
Theorem integer_times_pow10_interval :
  forall (c : cfg) (t : ftype) (m e b : Z), 0 <= m < 2 ^ 64 -> 0 <= b <= infinity (format_of t) ->
  integer_times_pow10_u c t m e = Ok b <->
  rounding_interval (format_of t)
    (match t with F16 => subnormal_ties_up binary16 | _ => ties_even end) (decimal m e) b.
Proof.
  intros c t m e b Hm RB. destruct (pow10_u_exact c t m e Hm) as (a & E & R).
  assert (IA : rounding_interval (format_of t) (match t with F16 => subnormal_ties_up binary16 | _ => ties_even end) (decimal m e) a /\
    0 <= a <= infinity (format_of t)).
  { change (decimal m e) with (dec m e).
    split; [|apply (rounds_or_tie_spec t (dec m e) a); destruct R as [R|(_ & R)]; [right|left]; exact R].
    assert (NE : t <> F16 -> rounding_interval (format_of t) ties_even (dec m e) a).
    { intros NT. apply even_interval, rounds_nearest_even. destruct R as [(T & _)|(_ & R)]; [contradiction|exact R]. }
    destruct t; try (apply NE; discriminate). exact (cf_interval_float16 _ _ R). }
  destruct IA as (IA & RA). rewrite E. split.
  - intros H. assert (a = b) as <- by congruence. exact IA.
  - intros I. rewrite (interval_unique t _ _ a b RA RB IA I). reflexivity.
Qed.
Print Assumptions integer_times_pow10_interval.

(** Nothing between the bounds is lost: if two values round to a number, so does
    everything between them. *)
Theorem interval_convex :
  forall (f : format) (x y z : Q) (b : Z), Qle x y -> Qle y z ->
  rounding_interval f ties_even x b -> rounding_interval f ties_even z b -> rounding_interval f ties_even y b.
Proof.
  intros f x y z b XY YZ (LX & _) (_ & UZ). split; intros H.
  - destruct (LX H) as [L|(L & U)].
    + left. lra.
    + apply Qle_lteq in XY. destruct XY as [XY|XY]; [left; lra|right; split; [lra|exact U]].
  - destruct (UZ H) as [L|(L & U)].
    + left. lra.
    + apply Qle_lteq in YZ. destruct YZ as [YZ|YZ]; [left; lra|right; split; [lra|exact U]].
Qed.
Print Assumptions interval_convex.

(** Instances: 9007199254740993 is the upper end of the interval of 2^53, which
    is even and gets it; one unit in the 17th decimal more does not belong. *)
Definition text_2_53_1 : list Z := [57; 48; 48; 55; 49; 57; 57; 50; 53; 52; 55; 52; 48; 57; 57; 51].
Definition text_2_53_1_1 : list Z := text_2_53_1 ++ [46; 49].

Lemma number_2_53_1 : number (rules_of cfg_x86_64 general) text_2_53_1 false text_2_53_1 [] 0 [].
Proof.
  exists text_2_53_1, [], false, []. split; [apply signed_none; cbn; lia|].
  split; [split; [reflexivity|]; split; [repeat constructor|exact I]|].
  split; [apply fraction_none; exact I|]. split; [cbn; discriminate|].
  apply exponent_none; [intros s1 M; inversion M|right; reflexivity].
Qed.

Lemma number_2_53_1_1 : number (rules_of cfg_x86_64 general) text_2_53_1_1 false text_2_53_1 [49] 0 [].
Proof.
  exists text_2_53_1_1, [46; 49], true, []. split; [apply signed_none; cbn; lia|].
  split; [split; [reflexivity|]; split; [repeat constructor|cbn; discriminate]|].
  split; [apply (fraction_some (rules_of cfg_x86_64 general)); split; [reflexivity|]; split; [repeat constructor|exact I]|]. split; [cbn; discriminate|].
  apply exponent_none; [intros s1 M; inversion M|right; reflexivity].
Qed.

Example interval_example :
  let b := (1023 + 53) * 2 ^ 52 in
  good_text cfg_x86_64 Char_s general text_2_53_1 /\ good_text cfg_x86_64 Char_s general text_2_53_1_1 /\
  exponent_bounded text_2_53_1 0 /\
  Qeq (2 * number_value text_2_53_1 [] 0) (magnitude binary64 b + magnitude binary64 (b + 1)) /\
  rounding_interval binary64 ties_even (number_value text_2_53_1 [] 0) b /\
  ~ rounding_interval binary64 ties_even (number_value text_2_53_1 [49] 0) b /\
  from_chars_float_advanced cfg_x86_64 Char_s F64 text_2_53_1 general =
    Ok {| r_ptr := []; r_ec := Success; r_value := Some b |} /\
  from_chars_float_advanced cfg_x86_64 Char_s F64 text_2_53_1_1 general =
    Ok {| r_ptr := []; r_ec := Success; r_value := Some (b + 1) |}.
Proof.
  intros b. do 2 (split; [apply ascii_good; [repeat constructor; lia|cbn; lia|reflexivity]|]). split; [right; reflexivity|].
  split; [vm_compute; reflexivity|]. split; [|split; [|split; vm_compute; reflexivity]].
  - split; intros _; [left; vm_compute; reflexivity|right; split; [vm_compute; reflexivity|discriminate]].
  - intros (_ & U). specialize (U ltac:(reflexivity)). destruct U as [U|(U & _)]; vm_compute in U; discriminate U.
Qed.

(** 2^-25 is half-way between zero and the smallest float16; with its 18 digits it
    belongs to the latter although 1 is odd. *)
Example interval_example_float16 :
  let x := number_value [50] [57; 56; 48; 50; 51; 50; 50; 51; 56; 55; 54; 57; 53; 51; 49; 50; 53] (-8) in
  rounding_interval binary16 (short_subnormal_ties_up binary16 x) x 1 /\
  ~ rounding_interval binary16 ties_even x 1 /\
  from_chars_float_advanced cfg_x86_64 Char_s F16 text_2_98 general =
    Ok {| r_ptr := []; r_ec := Success; r_value := Some 1 |} /\
  rounding_interval binary16 (subnormal_ties_up binary16) (decimal 298023223876953125 (-25)) 1 /\
  integer_times_pow10_u cfg_x86_64 F16 298023223876953125 (-25) = Ok 1.
Proof.
  intros x. split; [|split; [|split; [vm_compute; reflexivity|split; [|vm_compute; reflexivity]]]].
  - split; intros _; [right; split; [vm_compute; reflexivity|right; split; [vm_compute; discriminate|]]|left; vm_compute; reflexivity].
    exists 298023223876953125, (-25). split; [split; [discriminate|reflexivity]|vm_compute; reflexivity].
  - intros (L & _). specialize (L ltac:(reflexivity)). destruct L as [L|(_ & L)]; [vm_compute in L|]; discriminate L.
  - split; intros _; [right; split; [vm_compute; reflexivity|right; vm_compute; discriminate]|left; vm_compute; reflexivity].
Qed.
