(** Properties C66, C67 and C68: the clients in the repository. *)
From Verif Require Import Machine Config Chars Format ParseNumber DecToBin FromChars Ints RandomText Clients WordLemmas
  Rounding FpArith ComputeFloat SpecFloat FloatBridge SpecGrammar SpecText SpecApi SpecInt SpecIntApi SpecRel SpecPrint Scan ParseSpec Special
  FloatMaster FloatApi FloatRel TextSpec
  Props_Pow10 Props_Float Props_Relations Props_Grammar Props_Json Props_Texts Props_Special Props_FindMax Props_Print Props_Ints Props_RandomText Props_Sweep.
From Coq Require Import QArith Qabs Qpower Lqa.
Open Scope Z_scope.

(** ** C66: a number with white space around it *)

(** [s] is [p] between white space. *)
Definition padded (s p : list Z) : Prop :=
  exists before after, s = before ++ p ++ after /\
    Forall (fun ch => space ch = true) before /\ Forall (fun ch => space ch = true) after.

(** Numbers and special values with an optional + or -, no JSON or Fortran rules. *)
Definition field_rules : rules :=
  {| leading_plus := true; json := false; scientific := true; fixed := true; fortran := false; point := 46 |}.
Definition field_number (s : list Z) (neg : bool) (ip fp : list Z) (e : Z) : Prop :=
  exists p, padded s p /\ number_text field_rules p neg ip fp e.
Definition field_special (s : list Z) (neg : bool) (k : special_kind) : Prop :=
  exists p, padded s p /\ special true p neg k [].

Definition field_options : options := {| o_format := field_format; o_decimal_point := 46; o_base := 10 |}.

Lemma trailing_spec s : Forall ws_ok s -> trailing_content s = Ok (negb (forallb space s)).
Proof.
  induction 1 as [|ch s W _ IH]; [reflexivity|]. cbn [trailing_content]. rewrite is_space_spec by exact W. cbn [bind forallb].
  destruct (space ch); [exact IH|reflexivity].
Qed.

Lemma forallb_space s : forallb space s = true <-> Forall (fun ch => space ch = true) s.
Proof. rewrite forallb_forall, Forall_forall. reflexivity. Qed.

Lemma spaces_end s : Forall (fun ch => space ch = true) s -> number_ends 46 s /\ special_ends s.
Proof.
  intros F. destruct F as [|ch s S _]; [split; exact I|]. unfold number_ends, special_ends, not_at, space, digit in *. cbn [In].
  split; intros H; lia.
Qed.

Lemma padded_starts s p after before ch l : s = before ++ p ++ after -> Forall (fun ch => space ch = true) before ->
  p = ch :: l -> space ch = false -> forall s0, without_spaces s s0 -> s0 = p ++ after.
Proof.
  intros -> B -> S s0 W. apply (without_spaces_unique (before ++ (ch :: l) ++ after)); [exact W|].
  exists before. split; [reflexivity|]. split; [exact B|]. cbn. congruence.
Qed.

Lemma number_text_head p neg ip fp e : number_text field_rules p neg ip fp e -> exists ch l, p = ch :: l /\ space ch = false.
Proof.
  intros NT. pose proof (number_text_number field_rules p neg ip fp e ltac:(split; [reflexivity|cbn; lia]) NT) as N.
  destruct (number_first _ _ _ _ _ _ _ N) as (ch & l & -> & H). exists ch, l. split; [reflexivity|].
  unfold digit in H. cbn [point field_rules] in H. unfold space. lia.
Qed.

Lemma special_text_head p neg k rest : special true p neg k rest -> exists ch l, p = ch :: l /\ space ch = false.
Proof.
  intros SP. destruct (special_head _ _ _ _ _ SP) as (s1 & a & b & cc & l & E & -> & A & _). cbn [In] in A.
  destruct E as [->|[->| ->]]; eexists; eexists; (split; [reflexivity|]); unfold space; lia.
Qed.

(** C66: the reader of rcppfastfloat_test.cpp, for every text: it accepts exactly a
    number or special value with white space around it, unless the number is out of
    range, and the result is the nearest value of the type. *)
Theorem read_field_exact :
  forall (c : cfg) (u : uc) (t : ftype) (s : list Z),
  t <> F16 -> good_text c u field_options s -> Z.of_nat (length s) < 268000000 ->
  exists r, read_field c u t s = Ok r /\
    (forall neg ip fp e, field_number s neg ip fp e ->
       exists b, nearest_even (format_of t) (number_value ip fp e) b /\
         (((0 < number_value ip fp e)%Q /\ b = 0) \/ b = infinity (format_of t) -> r = None) /\
         (~ (((0 < number_value ip fp e)%Q /\ b = 0) \/ b = infinity (format_of t)) -> r = Some (with_sign (format_of t) neg b))) /\
    (forall neg k, field_special s neg k -> exists b, is_special (format_of t) k b /\ r = Some (with_sign (format_of t) neg b)) /\
    ((forall neg ip fp e, ~ field_number s neg ip fp e) -> (forall neg k, ~ field_special s neg k) -> r = None).
Proof.
  intros c u t s T G L.
  destruct (starts_exists c field_options s) as (s0 & SA).
  assert (R : rules_of c field_options = field_rules) by reflexivity.
  assert (W : without_spaces s s0) by exact SA.
  assert (WS : Forall ws_ok s) by (destruct (good_text_ok _ _ _ _ G) as (_ & WS & _); apply WS; reflexivity).
  assert (PP : plain_point field_rules) by (split; [reflexivity|cbn; lia]).
  assert (FN : forall neg ip fp e, field_number s neg ip fp e ->
    exists rest, number field_rules s0 neg ip fp e rest /\ Forall (fun ch => space ch = true) rest).
  { intros neg ip fp e (p & (before & after & E & B & A) & NT). destruct (number_text_head _ _ _ _ _ NT) as (ch & l & EP & S).
    rewrite (padded_starts s p after before ch l E B EP S s0 W). exists after. split; [|exact A].
    apply (number_trailing field_rules p neg ip fp e [] after); [rewrite app_nil_r; apply number_text_number; assumption|].
    apply spaces_end. exact A. }
  assert (FS : forall neg k, field_special s neg k -> exists rest, special true s0 neg k rest /\ Forall (fun ch => space ch = true) rest).
  { intros neg k (p & (before & after & E & B & A) & SP). destruct (special_text_head _ _ _ _ SP) as (ch & l & EP & S).
    rewrite (padded_starts s p after before ch l E B EP S s0 W). exists after. split; [|exact A].
    apply (special_trailing true p neg k [] after); [rewrite app_nil_r; exact SP|]. apply spaces_end. exact A. }
  assert (SUF : forall p rest, s0 = p ++ rest -> Forall ws_ok rest).
  { intros p rest E. destruct W as (ws & E1 & _). rewrite E1, E in WS. apply Forall_app in WS. destruct WS as (_ & WS).
    apply Forall_app in WS. apply WS. }
  assert (PAD : forall p rest, s0 = p ++ rest -> Forall (fun ch => space ch = true) rest -> padded s p).
  { intros p rest E F. destruct W as (ws & E1 & B & _). exists ws, rest. rewrite E1, E. auto. }
  unfold read_field, from_chars_float. change {| o_format := field_format; o_decimal_point := 46; o_base := 10 |} with field_options.
  destruct (number_or_not c u field_options s s0 G SA) as [(neg & ip & fp & e & rest & N)|NN].
  - destruct (from_chars_range_error c u t field_options s s0 neg ip fp e rest T G SA N (or_introl L)) as (b & x & E & NE & OR & SU).
    rewrite R in N. rewrite E. cbn [bind r_ec r_ptr r_value].
    destruct (number_number_text _ _ _ _ _ _ _ N) as (p & ES & NT).
    assert (NS : forall n k, ~ field_special s n k).
    { intros n k H. destruct (FS n k H) as (r' & SP & _). exact (special_not_number field_rules _ _ _ _ _ SP _ _ _ _ _ N). }
    assert (UN : forall n i f x, field_number s n i f x -> n = neg /\ i = ip /\ f = fp /\ x = e /\ Forall (fun ch => space ch = true) rest).
    { intros n i f x0 H. destruct (FN _ _ _ _ H) as (r' & N' & F'). destruct (number_unique _ _ _ _ _ _ _ _ _ _ _ _ N N') as (-> & -> & -> & -> & ->). auto. }
    rewrite (trailing_spec rest (SUF p rest ES)).
    assert (XC : x = OutOfRange \/ x = Success) by (destruct x; [auto|right; apply SU; discriminate|auto]).
    destruct (forallb space rest) eqn:FB.
    + apply forallb_space in FB.
      assert (YES : field_number s neg ip fp e) by (exists p; split; [exact (PAD p rest ES FB)|exact NT]).
      destruct XC as [-> | ->]; cbn [bind negb].
      * exists None. split; [reflexivity|]. split; [|split; [intros n k H; destruct (NS n k H)|reflexivity]].
        intros n i f x0 H. destruct (UN _ _ _ _ H) as (-> & -> & -> & -> & _). exists b. split; [exact NE|].
        split; [reflexivity|]. intros NO. destruct NO. apply OR. reflexivity.
      * exists (Some (with_sign (format_of t) neg b)). split; [reflexivity|]. split; [|split; [intros n k H; destruct (NS n k H)|intros H; destruct (H _ _ _ _ YES)]].
        intros n i f x0 H. destruct (UN _ _ _ _ H) as (-> & -> & -> & -> & _). exists b. split; [exact NE|].
        split; [|reflexivity]. intros YO. apply OR in YO. discriminate YO.
    + exists None. split; [destruct XC as [-> | ->]; reflexivity|]. split; [|split; [intros n k H; destruct (NS n k H)|reflexivity]].
      intros n i f x0 H. destruct (UN _ _ _ _ H) as (_ & _ & _ & _ & F). apply forallb_space in F. congruence.
  - assert (NN' : forall n i f x, ~ field_number s n i f x).
    { intros n i f x H. destruct (FN _ _ _ _ H) as (r' & N' & _). exact (NN _ _ _ _ _ N'). }
    destruct (other_main c u t field_options s s0 G SA NN) as [(A & _)|[(_ & NS & E)|(neg & k & rest & _ & SP & E)]].
    + discriminate A.
    + rewrite E. exists None. split; [reflexivity|]. split; [intros n i f x H; destruct (NN' _ _ _ _ H)|].
      split; [|reflexivity]. intros n k H. destruct (FS _ _ H) as (r' & SP & _). destruct (NS _ _ _ SP).
    + change (leading_plus (rules_of c field_options)) with true in SP.
      destruct (from_chars_special c u t field_options s s0 rest neg k G SA eq_refl SP) as (b & E' & IS).
      rewrite E'. cbn [bind r_ec r_ptr r_value]. destruct (special_suffix _ _ _ _ _ SP) as (p & ES).
      rewrite (trailing_spec rest (SUF p rest ES)). cbn [bind].
      assert (UN : forall n k', field_special s n k' -> n = neg /\ k' = k /\ Forall (fun ch => space ch = true) rest).
      { intros n k' H. destruct (FS _ _ H) as (r' & SP' & F). destruct (special_unique _ _ _ _ _ _ _ _ SP SP') as (-> & -> & ->). auto. }
      destruct (forallb space rest) eqn:FB; cbn [negb].
      * apply forallb_space in FB.
        assert (YES : field_special s neg k).
        { exists p. split; [exact (PAD p rest ES FB)|]. rewrite ES in SP. pose proof (special_trailing _ _ _ _ _ [] SP I) as H. rewrite app_nil_r in H. exact H. }
        eexists. split; [reflexivity|]. split; [intros n i f x H; destruct (NN' _ _ _ _ H)|]. split; [|intros _ H; destruct (H _ _ YES)].
        intros n k' H. destruct (UN _ _ H) as (-> & -> & _). exists b. split; [exact IS|reflexivity].
      * exists None. split; [reflexivity|]. split; [intros n i f x H; destruct (NN' _ _ _ _ H)|]. split; [|reflexivity].
        intros n k' H. destruct (UN _ _ H) as (_ & _ & F). apply forallb_space in F. congruence.
Qed.
Print Assumptions read_field_exact.

(** What the reader says about a row of the table is what the row expects. *)
Definition row_right (c : cfg) (u : uc) (d : test_data) : Prop :=
  exists r, read_field c u F64 (input d) = Ok r /\
    match r with
    | None => expected_success d = false
    | Some v => expected_success d = true /\
        (fp_equal F64 v (expected_result d) = true \/ (double_nan v = true /\ double_nan (expected_result d) = true))
    end.

Theorem eddelbuettel_exact :
  forall (c : cfg) (u : uc) (datas : list test_data),
  Forall (fun d => good_text c u field_options (input d) /\ Z.of_nat (length (input d)) < 268000000) datas ->
  exists ok, eddelbuettel c u datas = Ok ok /\ (ok = true <-> Forall (row_right c u) datas).
Proof.
  intros c u datas F. induction F as [|d datas (G & L) _ (ok & E & IH)]; [exists true; split; [reflexivity|]; split; [constructor|reflexivity]|].
  cbn [eddelbuettel]. destruct (read_field_exact c u F64 (input d) ltac:(discriminate) G L) as (r & ER & _).
  assert (RR : row_right c u d <-> match r with
    | None => expected_success d = false
    | Some v => expected_success d = true /\
        (fp_equal F64 v (expected_result d) = true \/ (double_nan v = true /\ double_nan (expected_result d) = true)) end).
  { unfold row_right. split; [intros (r' & ER' & H); rewrite ER in ER'; injection ER' as <-; exact H|intros H; exists r; auto]. }
  assert (SPL : Forall (row_right c u) (d :: datas) <-> row_right c u d /\ Forall (row_right c u) datas).
  { split; [intros H; inversion H; auto|intros (H1 & H2); constructor; assumption]. }
  rewrite ER. cbn [bind]. destruct r as [v|].
  - destruct (expected_success d) eqn:ES; cbn [negb].
    + destruct (fp_equal F64 v (expected_result d)) eqn:EQ; cbn [negb andb].
      * exists ok. split; [exact E|]. rewrite SPL, RR, IH. intuition.
      * destruct (double_nan v && double_nan (expected_result d)) eqn:DN; cbn [negb].
        -- apply andb_true_iff in DN. exists ok. split; [exact E|]. rewrite SPL, RR, IH. intuition.
        -- exists false. split; [reflexivity|]. rewrite SPL, RR. split; [discriminate|]. intros ((_ & [H|(H1 & H2)]) & _); [discriminate H|].
           rewrite H1, H2 in DN. discriminate DN.
    + exists false. split; [reflexivity|]. rewrite SPL, RR. split; [discriminate|]. intros ((H & _) & _). discriminate H.
  - destruct (expected_success d) eqn:ES.
    + exists false. split; [reflexivity|]. rewrite SPL, RR. split; [discriminate|]. intros (H & _). discriminate H.
    + exists ok. split; [exact E|]. rewrite SPL, RR, IH. intuition.
Qed.
Print Assumptions eddelbuettel_exact.

(** The rows of rcppfastfloat_test.cpp:17-53. *)
Definition test_datas : list test_data := [
   {| input := [105; 110; 102; 105; 110; 105; 116; 121]; expected_success := true; expected_result := 0x7FF0000000000000 |};
   {| input := [32; 13; 10; 9; 12; 11; 51; 46; 49; 54; 50; 50; 55; 55; 54; 54; 48; 49; 54; 56; 51; 56; 32; 13; 10; 9; 12; 11]; expected_success := true; expected_result := 0x40094C583ADA5B54 |};
   {| input := [32; 13; 10; 9; 12; 11; 51; 32; 13; 10; 9; 12; 11]; expected_success := true; expected_result := 0x4008000000000000 |};
   {| input := [32; 32; 49; 57; 55; 48; 45; 48; 49; 45; 48; 49]; expected_success := false; expected_result := 0x0 |};
   {| input := [45; 78; 97; 78]; expected_success := true; expected_result := 0x7FF8000000000000 |};
   {| input := [45; 105; 110; 102]; expected_success := true; expected_result := 0xFFF0000000000000 |};
   {| input := [32; 13; 10; 9; 12; 11; 50; 46; 56; 50; 56; 52; 50; 55; 49; 50; 52; 55; 52; 54; 49; 57; 32; 13; 10; 9; 12; 11]; expected_success := true; expected_result := 0x4006A09E667F3BCC |};
   {| input := [110; 97; 110]; expected_success := true; expected_result := 0x7FF8000000000000 |};
   {| input := [32; 13; 10; 9; 12; 11; 50; 46; 52; 52; 57; 52; 56; 57; 55; 52; 50; 55; 56; 51; 49; 56; 32; 13; 10; 9; 12; 11]; expected_success := true; expected_result := 0x4003988E14092133 |};
   {| input := [73; 110; 102]; expected_success := true; expected_result := 0x7FF0000000000000 |};
   {| input := [32; 13; 10; 9; 12; 11; 50; 32; 13; 10; 9; 12; 11]; expected_success := true; expected_result := 0x4000000000000000 |};
   {| input := [45; 105; 110; 102; 105; 110; 105; 116; 121]; expected_success := true; expected_result := 0xFFF0000000000000 |};
   {| input := [32; 13; 10; 9; 12; 11; 48; 32; 13; 10; 9; 12; 11]; expected_success := true; expected_result := 0x0 |};
   {| input := [32; 13; 10; 9; 12; 11; 49; 46; 55; 51; 50; 48; 53; 48; 56; 48; 55; 53; 54; 56; 56; 56; 32; 13; 10; 9; 12; 11]; expected_success := true; expected_result := 0x3FFBB67AE8584CB7 |};
   {| input := [32; 13; 10; 9; 12; 11; 49; 32; 13; 10; 9; 12; 11]; expected_success := true; expected_result := 0x3FF0000000000000 |};
   {| input := [32; 13; 10; 9; 12; 11; 49; 46; 52; 49; 52; 50; 49; 51; 53; 54; 50; 51; 55; 51; 49; 32; 13; 10; 9; 12; 11]; expected_success := true; expected_result := 0x3FF6A09E667F3BE3 |};
   {| input := [32; 13; 10; 9; 12; 11; 50; 46; 50; 51; 54; 48; 54; 55; 57; 55; 55; 52; 57; 57; 55; 57; 32; 13; 10; 9; 12; 11]; expected_success := true; expected_result := 0x4001E3779B97F4A8 |};
   {| input := [49; 57; 55; 48; 45; 48; 49; 45; 48; 50; 32; 32]; expected_success := false; expected_result := 0x0 |};
   {| input := [32; 13; 10; 9; 12; 11; 50; 46; 54; 52; 53; 55; 53; 49; 51; 49; 49; 48; 54; 52; 53; 57; 32; 13; 10; 9; 12; 11]; expected_success := true; expected_result := 0x40052A7FA9D2F8E8 |};
   {| input := [105; 110; 102]; expected_success := true; expected_result := 0x7FF0000000000000 |};
   {| input := [45; 110; 97; 110]; expected_success := true; expected_result := 0x7FF8000000000000 |};
   {| input := [78; 97; 78]; expected_success := true; expected_result := 0x7FF8000000000000 |};
   {| input := []; expected_success := false; expected_result := 0x0 |};
   {| input := [45; 73; 110; 102]; expected_success := true; expected_result := 0xFFF0000000000000 |};
   {| input := [43; 50; 46; 50]; expected_success := true; expected_result := 0x400199999999999A |};
   {| input := [49; 100; 43; 52]; expected_success := false; expected_result := 0x0 |};
   {| input := [49; 100; 45; 49]; expected_success := false; expected_result := 0x0 |};
   {| input := [48; 46]; expected_success := true; expected_result := 0x0 |};
   {| input := [45; 46; 49]; expected_success := true; expected_result := 0xBFB999999999999A |};
   {| input := [43; 46; 49]; expected_success := true; expected_result := 0x3FB999999999999A |};
   {| input := [49; 101; 43; 49]; expected_success := true; expected_result := 0x4024000000000000 |};
   {| input := [43; 49; 101; 49]; expected_success := true; expected_result := 0x4024000000000000 |};
   {| input := [45; 43; 48]; expected_success := false; expected_result := 0x0 |};
   {| input := [45; 43; 105; 110; 102]; expected_success := false; expected_result := 0x0 |};
   {| input := [45; 43; 110; 97; 110]; expected_success := false; expected_result := 0x0 |} ].

Example test_datas_right :
  eddelbuettel cfg_x86_64 Char_s test_datas = Ok true /\
  Forall (fun d => good_text cfg_x86_64 Char_s field_options (input d) /\ Z.of_nat (length (input d)) < 268000000) test_datas /\
  field_number [32; 43; 49; 32; 10] false [49] [] 0 /\ field_special [9; 45; 105; 78; 102; 32] true Inf.
Proof.
  split; [vm_compute; reflexivity|]. split; [|split].
  - unfold test_datas. repeat (constructor; [split; [apply ascii_good; [cbn [input]; repeat (constructor; [lia|]); constructor|cbn; lia|reflexivity]|cbn; lia]|]). constructor.
  - exists [43; 49]. split.
    + exists [32], [32; 10]. split; [reflexivity|]. split; repeat constructor.
    + exists [43], false, [], []. split; [reflexivity|]. split; [right; right; auto|]. split; [repeat constructor|].
      split; [left; auto|]. split; [cbn; discriminate|]. left. auto.
  - exists [45; 105; 78; 102]. split.
    + exists [9], [32]. split; [reflexivity|]. split; repeat constructor.
    + apply (special_inf true _ true [105; 78; 102] []); [constructor| |].
      * repeat (constructor; [lia|]). constructor.
      * intros r H. inversion H.
Qed.

(** ** C67: multiples of powers of five *)
Lemma power5_spec q : (q <= 27)%nat -> power5 q = 5 ^ Z.of_nat q.
Proof.
  intros H. assert (IN : In q (seq 0 28)) by (apply in_seq; lia). clear H.
  assert (A : forallb (fun q => power5 q =? 5 ^ Z.of_nat q) (seq 0 28) = true) by (vm_compute; reflexivity).
  rewrite forallb_forall in A. apply Z.eqb_eq, A. exact IN.
Qed.

(** The numbers drawn are those whose product with 5^q has more than 53 and at most
    64 bits, and there are some. *)
Theorem hard_range :
  forall q : nat, (18 <= q <= 27)%nat ->
  power5 q = 5 ^ Z.of_nat q /\ low_threshold q <= threshold q /\
  forall w, low_threshold q <= w <= threshold q <-> 2 ^ 53 < w * 5 ^ Z.of_nat q < 2 ^ 64.
Proof.
  intros q Q. pose proof (power5_spec q ltac:(lia)) as P. split; [exact P|]. unfold low_threshold, threshold. rewrite P.
  assert (B : 5 <= 5 ^ Z.of_nat q <= 5 ^ 27).
  { split; [change 5 with (5 ^ 1) at 1|]; apply Z.pow_le_mono_r; lia. }
  assert (LT : 0x20000000000000 / 5 ^ Z.of_nat q + 1 <= 0xFFFFFFFFFFFFFFFF / 5 ^ Z.of_nat q).
  { assert (IN : In q (seq 18 10)) by (apply in_seq; lia). clear - IN.
    assert (A : forallb (fun q => 0x20000000000000 / 5 ^ Z.of_nat q + 1 <=? 0xFFFFFFFFFFFFFFFF / 5 ^ Z.of_nat q) (seq 18 10) = true) by (vm_compute; reflexivity).
    rewrite forallb_forall in A. apply Z.leb_le, A. exact IN. }
  set (p := 5 ^ Z.of_nat q) in *. clearbody p.
  pose proof (Z.div_mod 0x20000000000000 p ltac:(lia)) as D1. pose proof (Z.mod_pos_bound 0x20000000000000 p ltac:(lia)) as M1.
  pose proof (Z.div_mod 0xFFFFFFFFFFFFFFFF p ltac:(lia)) as D2. pose proof (Z.mod_pos_bound 0xFFFFFFFFFFFFFFFF p ltac:(lia)) as M2.
  rewrite u64_small.
  2:{ assert (0 <= 0x20000000000000 / p) by (apply Z.div_pos; lia). assert (0x20000000000000 / p <= 0x20000000000000) by (apply Z.div_le_upper_bound; nia). lia. }
  split; [exact LT|]. set (a := 0x20000000000000 / p) in *. set (b := 0xFFFFFFFFFFFFFFFF / p) in *. clearbody a b.
  intros w. split; intros (H1 & H2); split; nia.
Qed.
Print Assumptions hard_range.

Lemma base_digits_length up base f : forall n acc, (length (base_digits up base f n acc) <= f + length acc)%nat.
Proof.
  induction f as [|f IH]; intros n acc; cbn [base_digits]; [lia|]. destruct (n <? base); [cbn [length]; lia|].
  pose proof (IH (n / base) (digit_char up (n mod base) :: acc)) as H. cbn [length] in H. lia.
Qed.

Lemma natural_length_bits m k : 0 < m < 2 ^ Z.of_nat k -> (length (print_natural false 10 m) <= k)%nat.
Proof.
  intros M. unfold print_natural. pose proof (base_digits_length false 10 (S (Z.to_nat (Z.log2 m))) m []) as H.
  assert (Z.log2 m < Z.of_nat k) by (apply Z.log2_lt_pow2; lia). pose proof (Z.log2_nonneg m). cbn [length] in H. lia.
Qed.

Lemma hard_text_number c q w : (18 <= q <= 27)%nat -> 2 ^ 53 < w * 5 ^ Z.of_nat q < 2 ^ 64 ->
  exists ip, number_text (rules_of c general) (hard_text q w) false ip [] (- Z.of_nat q) /\ digits_value ip = w * 5 ^ Z.of_nat q /\
    Forall (fun ch => 0 <= ch < 128) (hard_text q w) /\ (length (hard_text q w) <= 80)%nat.
Proof.
  intros Q W. unfold hard_text, hard_mantissa. rewrite (power5_spec q) by lia. rewrite u64_small by lia.
  set (m := w * 5 ^ Z.of_nat q) in *. destruct (natural_digits m ltac:(lia)) as (A1 & N1 & V1).
  destruct (natural_digits (Z.of_nat q) ltac:(lia)) as (A2 & N2 & V2).
  pose proof (natural_length_bits m 64 ltac:(change (Z.of_nat 64) with 64; lia)) as LEN.
  pose proof (natural_length_bits (Z.of_nat q) 8 ltac:(change (Z.of_nat 8) with 8; lia)) as LEN2.
  unfold print_integer. replace (- Z.of_nat q <? 0) with true by (symmetry; apply Z.ltb_lt; lia).
  replace (- - Z.of_nat q) with (Z.of_nat q) by lia.
  set (ip := print_natural false 10 m) in *. set (eq := print_natural false 10 (Z.of_nat q)) in *.
  exists ip. split; [|split; [exact V1|]].
  - exists [], false, [], ([101] ++ 45 :: eq). split; [reflexivity|]. split; [right; left; auto|]. split; [exact A1|].
    split; [left; auto|]. split; [cbn [json rules_of general o_format mantissa_ok]; unfold mantissa_ok; cbn; rewrite app_nil_r; exact N1|].
    right. exists [101], [45], eq. split; [reflexivity|].
    split; [exact A2|]. split; [exact N2|]. split; [left; split; [reflexivity|congruence]|]. left. split; [reflexivity|]. left. reflexivity.
  - split.
    + assert (D : forall l, all_digits l -> Forall (fun ch => 0 <= ch < 128) l).
      { intros l H. revert H. apply Forall_impl. intros ch H. unfold digit in H. lia. }
      apply Forall_app. split; [apply D; exact A1|]. constructor; [lia|]. constructor; [lia|]. apply D. exact A2.
    + rewrite app_length. cbn [app length]. lia.
Qed.

(** w * 2^-q *)
Definition hard_value (q : nat) (w : Z) : Q := (inject_Z w * Qpower 2 (- Z.of_nat q))%Q.

Lemma magnitude_nearest t b : 0 <= b <= infinity (format_of t) -> nearest_even (format_of t) (magnitude (format_of t) b) b.
Proof.
  intros B. split; [exact B|]. intros b' B'.
  assert (Z0 : (Qabs (magnitude (format_of t) b - magnitude (format_of t) b) == 0)%Q).
  { setoid_replace (magnitude (format_of t) b - magnitude (format_of t) b)%Q with 0%Q by ring. reflexivity. }
  destruct (Z.eq_dec b b') as [->|NE]; [right; split; [reflexivity|auto]|]. left. rewrite Z0.
  destruct (Z_lt_le_dec b b') as [L|L].
  - pose proof (magnitude_lt t b b' ltac:(lia)) as M. rewrite Qabs_Qminus, Qabs_pos by lra. lra.
  - pose proof (magnitude_lt t b' b ltac:(lia)) as M. rewrite Qabs_pos by lra. lra.
Qed.

Lemma hard_value_range q w : (18 <= q <= 27)%nat -> 2 ^ 53 < w * 5 ^ Z.of_nat q < 2 ^ 64 ->
  (1 # 134217728 <= hard_value q w)%Q /\ (hard_value q w <= 18446744073709551616 # 1)%Q.
Proof.
  intros Q W. assert (W1 : 1 <= w <= 2 ^ 64).
  { assert (P : 1 <= 5 ^ Z.of_nat q) by (pose proof (Z.pow_pos_nonneg 5 (Z.of_nat q)); lia).
    set (p := 5 ^ Z.of_nat q) in *. clearbody p. split; nia. }
  unfold hard_value. rewrite Qpower_opp. change 2%Q with (inject_Z 2). rewrite <- (Zpower_Qpower 2 (Z.of_nat q)) by lia.
  assert (B : 1 <= 2 ^ Z.of_nat q <= 134217728).
  { split; [pose proof (Z.pow_pos_nonneg 2 (Z.of_nat q)); lia|]. change 134217728 with (2 ^ 27). apply Z.pow_le_mono_r; lia. }
  change (2 ^ 64) with 18446744073709551616 in W1. clear W Q.
  set (p := 2 ^ Z.of_nat q) in *. clearbody p. destruct p as [|p|p]; [lia| |lia].
  change (/ inject_Z (Zpos p))%Q with (1 # p)%Q. unfold inject_Z, Qmult, Qle. cbn [Qnum Qden].
  split; [change (Zpos (1 * p)) with (Zpos p)|change (Zpos (1 * p)) with (Zpos p)]; lia.
Qed.

(** C67: the text of w * 5^q and e-q is w * 2^-q, and is read as the nearest double. *)
Theorem hard_text_read :
  forall (c : cfg) (u : uc) (q : nat) (w : Z), (18 <= q <= 27)%nat -> 2 ^ 53 < w * 5 ^ Z.of_nat q < 2 ^ 64 ->
  exists b, from_chars_float c u F64 (hard_text q w) f_general =
      Ok {| r_ptr := []; r_ec := Success; r_value := Some (with_sign binary64 false b) |} /\
    nearest_even binary64 (hard_value q w) b /\ 0 < b < infinity binary64.
Proof.
  intros c u q w Q W. destruct (hard_text_number c q w Q W) as (ip & NT & V & A & L). set (s := hard_text q w) in *. clearbody s.
  assert (N : number (rules_of c general) s false ip [] (- Z.of_nat q) []) by (apply number_text_number; [split; [reflexivity|cbn; lia]|exact NT]).
  assert (G : good_text c u general s) by (apply ascii_good; [exact A|lia|reflexivity]).
  assert (SA : starts_at c general s s).
  { unfold starts_at. destruct (skips_space c general); [|reflexivity]. exists []. split; [reflexivity|]. split; [constructor|].
    destruct (number_first _ _ _ _ _ _ _ N) as (ch & l & -> & H). cbn [not_at].
    unfold digit in H. cbn [point rules_of general o_decimal_point] in H. unfold space. lia. }
  assert (EB : exponent_bounded s (- Z.of_nat q)) by (left; lia).
  destruct (from_chars_range_error c u F64 general s s false ip [] (- Z.of_nat q) [] ltac:(discriminate) G SA N EB)
    as (b & x & E & NE & OR & SU). cbn [format_of] in *.
  assert (HV : (number_value ip [] (- Z.of_nat q) == hard_value q w)%Q).
  { unfold number_value, hard_value, decimal. rewrite app_nil_r, V. cbn [length]. rewrite Z.sub_0_r.
    rewrite inject_Z_mult. assert (P : (Qpower 10 (- Z.of_nat q) == Qpower 2 (- Z.of_nat q) * Qpower 5 (- Z.of_nat q))%Q).
    { change 10%Q with (2 * 5)%Q. apply Qmult_power. }
    rewrite P, Zpower_Qpower by lia. rewrite Qpower_opp.
    assert (NZ : ~ (Qpower 5 (Z.of_nat q) == 0)%Q) by (apply Qpower_not_0; discriminate).
    rewrite (Qpower_opp 5). change (inject_Z 5) with 5%Q. field. split; apply Qpower_not_0; discriminate. }
  apply (nearest_even_comp _ _ _ _ HV) in NE.
  destruct (hard_value_range q w Q W) as (LO & HI).
  assert (I : infinity binary64 = 9218868437227405312) by reflexivity.
  assert (B0 : 996 * 2 ^ 52 <= b).
  { apply (nearest_even_mono F64 (magnitude binary64 (996 * 2 ^ 52)) (hard_value q w)); [|apply (magnitude_nearest F64); split; [|cbn [format_of]; rewrite I]; lia|exact NE].
    eapply Qle_trans; [|exact LO]. vm_compute. discriminate. }
  assert (B1 : b <= 1087 * 2 ^ 52).
  { apply (nearest_even_mono F64 (hard_value q w) (magnitude binary64 (1087 * 2 ^ 52))); [|exact NE|apply (magnitude_nearest F64); split; [|cbn [format_of]; rewrite I]; lia].
    eapply Qle_trans; [exact HI|]. vm_compute. discriminate. }
  exists b. split; [|split; [exact NE|rewrite I; lia]].
  unfold from_chars_float. change {| o_format := f_general; o_decimal_point := 46; o_base := 10 |} with general. rewrite E.
  rewrite SU; [reflexivity|]. intros X. apply OR in X. rewrite I in X. destruct X as [(_ & X)|X]; lia.
Qed.
Print Assumptions hard_text_read.

Lemma hard_check_exact c u strtod q w : (18 <= q <= 27)%nat -> 2 ^ 53 < w * 5 ^ Z.of_nat q < 2 ^ 64 ->
  (forall s v, strtod s = Some v -> 0 <= v < 2 ^ 64) ->
  exists ok, hard_check (library_parser c u F64) strtod q w = Done ok /\
    (ok = true <-> exists b, strtod (hard_text q w) = Some (with_sign binary64 false b) /\ nearest_even binary64 (hard_value q w) b).
Proof.
  intros Q W ST. destruct (hard_text_read c u q w Q W) as (b & E & NE & B). unfold hard_check, library_parser. rewrite E.
  cbn [lift andthen r_ec r_value]. eexists. split; [reflexivity|].
  assert (EX : (exists b0, strtod (hard_text q w) = Some (with_sign binary64 false b0) /\ nearest_even binary64 (hard_value q w) b0) <->
               strtod (hard_text q w) = Some (with_sign binary64 false b)).
  { split; [intros (b0 & H & NE0)|intros H; exists b; auto]. rewrite (nearest_even_unique F64 _ _ _ NE NE0). exact H. }
  rewrite EX. clear EX E.
  assert (I : infinity binary64 = 9218868437227405312) by reflexivity.
  change binary64 with (format_of F64) in *.
  destruct (strtod (hard_text q w)) as [v|] eqn:SE.
  - specialize (ST _ _ SE). destruct (word_parts F64 v ST) as (n & m & -> & M).
    destruct (Z_le_gt_dec m (infinity (format_of F64))) as [MI|MI].
    + rewrite (equal_spec F64 false b n m) by lia. split.
      * intros H. apply Z.eqb_eq in H. destruct n; [lia|]. subst m. reflexivity.
      * intros H. assert (H0 : with_sign (format_of F64) n m = with_sign (format_of F64) false b) by congruence. clear H. rename H0 into H. apply (with_sign_inj F64) in H; [|lia..]. destruct H as (-> & ->). apply Z.eqb_refl.
    + split.
      * unfold fp_equal. rewrite (sign_mod F64 n m) by exact M. rewrite infinity_eq.
        replace (infinity (format_of F64) <? m) with true by (symmetry; apply Z.ltb_lt; lia). cbn [negb]. rewrite andb_false_r. discriminate.
      * intros H. assert (H0 : with_sign (format_of F64) n m = with_sign (format_of F64) false b) by congruence. clear H. rename H0 into H. exfalso. pose proof (f_equal (fun z => z mod 2 ^ sign_index F64) H) as HM. cbn beta in HM.
        rewrite (sign_mod F64 n m) in HM by exact M. rewrite (sign_mod F64 false b) in HM by (change (sign_index F64) with 63; lia). lia.
  - split; [|discriminate]. change 0 with (with_sign (format_of F64) false 0). rewrite (equal_spec F64 false b false 0) by lia.
    intros H. apply Z.eqb_eq in H. lia.
Qed.

Lemma hard_tester_good read strtod draws (good : nat -> Z -> Prop) :
  (forall q w, (18 <= q <= 27)%nat -> In w (draws q) -> exists ok, hard_check read strtod q w = Done ok /\ (ok = true <-> good q w)) ->
  exists ok, hard_tester_read read strtod draws = Done ok /\
    (ok = true <-> forall q w, (18 <= q <= 27)%nat -> In w (draws q) -> good q w).
Proof.
  intros CK. unfold hard_tester_read.
  assert (D : forall q, (18 <= q <= 27)%nat -> forall l, (forall w, In w l -> In w (draws q)) ->
    exists ok, hard_draws read strtod q l = Done ok /\ (ok = true <-> forall w, In w l -> good q w)).
  { intros q Q. induction l as [|w l IH]; intros H; [exists true; split; [reflexivity|split; [intros _ w [] |reflexivity]]|].
    destruct (CK q w Q (H w (or_introl eq_refl))) as (ok1 & E1 & R1).
    destruct (IH (fun w' I => H w' (or_intror I))) as (ok2 & E2 & R2).
    cbn [hard_draws]. rewrite E1. cbn [andthen]. destruct ok1; cbn [negb].
    - exists ok2. split; [exact E2|]. rewrite R2. split; [intros A w' [<-|I]; [apply R1; reflexivity|apply A; exact I]|intros A w' I; apply A; right; exact I].
    - exists false. split; [reflexivity|]. split; [discriminate|]. intros A. apply R1, A. left. reflexivity. }
  assert (ALL : forall qs, (forall q, In q qs -> (18 <= q <= 27)%nat) ->
    exists ok, hard_loop read strtod draws qs = Done ok /\ (ok = true <-> forall q w, In q qs -> In w (draws q) -> good q w)).
  { induction qs as [|q qs IH]; intros H; [exists true; split; [reflexivity|split; [intros _ q w []|reflexivity]]|].
    assert (Q : (18 <= q <= 27)%nat) by (apply H; left; reflexivity).
    destruct (hard_range q Q) as (P & LT & _). destruct (D q Q (draws q) (fun w I => I)) as (ok1 & E1 & R1).
    destruct (IH (fun q' I => H q' (or_intror I))) as (ok2 & E2 & R2).
    cbn [hard_loop]. replace (power5 q =? 0) with false by (symmetry; apply Z.eqb_neq; rewrite P; pose proof (Z.pow_pos_nonneg 5 (Z.of_nat q)); lia).
    replace (threshold q <? low_threshold q) with false by (symmetry; apply Z.ltb_ge; exact LT).
    rewrite E1. cbn [andthen]. destruct ok1; cbn [negb].
    - exists ok2. split; [exact E2|]. rewrite R2. split; [intros A q' w [<-|I]; [intros IW; apply R1; auto|apply A; exact I]|intros A q' w I; apply A; right; exact I].
    - exists false. split; [reflexivity|]. split; [discriminate|]. intros A. apply R1. intros w IW. apply (A q w); [left; reflexivity|exact IW]. }
  destruct (ALL (seq 18 10)) as (ok & E & R); [intros q I; apply in_seq in I; lia|].
  exists ok. split; [exact E|]. rewrite R. split; intros A q w Q; apply A; [apply in_seq; lia|apply in_seq in Q; lia].
Qed.

(** C67: the program powersoffive_hardround.cpp, for every strtod and all the numbers it
    can draw: it ends, and says yes exactly if strtod gives the nearest double, ties to
    even, of each w * 2^-q. *)
Theorem hard_tester_exact :
  forall (c : cfg) (u : uc) (strtod : list Z -> option Z) (draws : nat -> list Z),
  (forall s v, strtod s = Some v -> 0 <= v < 2 ^ 64) ->
  (forall q w, (18 <= q <= 27)%nat -> In w (draws q) -> low_threshold q <= w <= threshold q) ->
  exists ok, hard_tester c u strtod draws = Done ok /\
    (ok = true <->
     forall q w, (18 <= q <= 27)%nat -> In w (draws q) ->
       exists b, strtod (hard_text q w) = Some (with_sign binary64 false b) /\ nearest_even binary64 (hard_value q w) b).
Proof.
  intros c u strtod draws ST DR. apply hard_tester_good. intros q w Q I. apply hard_check_exact; [exact Q| |exact ST].
  apply (hard_range q Q). apply DR; assumption.
Qed.
Print Assumptions hard_tester_exact.

(** C67: with any parser that gives answers it says yes exactly if the parser agrees
    with strtod (0 if strtod fails) on every text. *)
Theorem hard_tester_any_parser :
  forall (read : list Z -> res result) (strtod : list Z -> option Z) (draws : nat -> list Z),
  answers read ->
  exists ok, hard_tester_read read strtod draws = Done ok /\
    (ok = true <->
     forall q w, (18 <= q <= 27)%nat -> In w (draws q) ->
       exists r v, read (hard_text q w) = Ok r /\ r_ec r <> InvalidArgument /\ r_value r = Some v /\
         fp_equal F64 v (match strtod (hard_text q w) with Some e => e | None => 0 end) = true).
Proof.
  intros read strtod draws A. apply hard_tester_good. intros q w _ _. unfold hard_check.
  destruct (A (hard_text q w)) as (r & E & V). rewrite E. cbn [lift andthen].
  set (e := match strtod (hard_text q w) with Some e => e | None => 0 end).
  destruct (r_ec r) eqn:EC.
  2:{ exists false. split; [reflexivity|]. split; [discriminate|]. intros (r' & v & H1 & H2 & _). congruence. }
  all: destruct V as (v & EV); [congruence|]; rewrite EV; exists (fp_equal F64 v e); split; [reflexivity|]; split;
    [intros H; exists r, v; split; [reflexivity|]; split; [congruence|]; split; assumption
    |intros (r' & v' & H1 & _ & H3 & H4); congruence].
Qed.
Print Assumptions hard_tester_any_parser.

(** Its hypotheses are met: the library as strtod, numbers drawn at both ends. *)
Example hard_tester_runs :
  let strtod s := match from_chars_float cfg_x86_64 Char_s F64 s f_general with Ok r => r_value r | UB => None end in
  let draws q := [low_threshold q; (low_threshold q + threshold q) / 2; threshold q] in
  hard_tester cfg_x86_64 Char_s strtod draws = Done true /\
  hard_tester cfg_x86_64 Char_s (fun _ => Some 0) draws = Done false /\
  (low_threshold 18, threshold 18, hard_text 18 2362) = (2362, 4835703, [57; 48; 49; 48; 51; 49; 52; 57; 52; 49; 52; 48; 54; 50; 53; 48; 101; 45; 49; 56]).
Proof. vm_compute. auto. Qed.

(** ** C68: the fuzz target *)

(** C68: fuzz/from_chars.cc has no undefined behaviour for any bytes and any format the
    data provider chooses, and each destination keeps its 0 or gets what from_chars
    stores. *)
Theorem fuzz_one_defined :
  forall (c : cfg) (u : uc) (T : ity) (k : Z) (d f i : list Z),
  u <> Wchar_s32 -> int_type T ->
  Forall (code_unit u) d -> Forall (code_unit u) f -> Forall (code_unit u) i ->
  (length d <= 128)%nat -> (length f <= 128)%nat -> (length i <= 128)%nat ->
  exists vd vf vi rd rf ri,
    fuzz_one c u T k d f i = Ok (vd, vf, vi) /\
    from_chars_float c u F64 d (arbitrary_format k) = Ok rd /\
    from_chars_float c u F32 f (arbitrary_format k) = Ok rf /\
    from_chars_int c u T i 10 = Ok ri /\
    (r_value rd = Some vd \/ (r_value rd = None /\ vd = 0)) /\
    (r_value rf = Some vf \/ (r_value rf = None /\ vf = 0)) /\
    (r_value ri = Some vi \/ (r_value ri = None /\ vi = 0)) /\
    (arbitrary_format k = f_scientific \/ arbitrary_format k = f_fixed \/ arbitrary_format k = f_general).
Proof.
  intros c u T k d f i U IT CD CF CI LD LF LI.
  set (o := {| o_format := arbitrary_format k; o_decimal_point := 46; o_base := 10 |}).
  destruct (from_chars_defined c u F64 o d CD ltac:(intros ->; congruence) ltac:(lia)) as (rd & ED & _).
  destruct (from_chars_defined c u F32 o f CF ltac:(intros ->; congruence) ltac:(lia)) as (rf & EF & _).
  destruct (from_chars_int_defined c u T {| o_format := f_general; o_decimal_point := 46; o_base := 10 |} i IT CI) as (ri & EI & _).
  assert (ED' : from_chars_float c u F64 d (arbitrary_format k) = Ok rd) by exact ED.
  assert (EF' : from_chars_float c u F32 f (arbitrary_format k) = Ok rf) by exact EF.
  assert (EI' : from_chars_int c u T i 10 = Ok ri) by exact EI.
  unfold fuzz_one. rewrite ED', EF', EI'. cbn [bind].
  eexists _, _, _, rd, rf, ri. split; [reflexivity|]. repeat (split; [reflexivity || assumption|]).
  split; [destruct (r_value rd); auto|]. split; [destruct (r_value rf); auto|]. split; [destruct (r_value ri); auto|].
  unfold arbitrary_format. destruct (k =? 0); [auto|]. destruct (k =? 1); [auto|]. destruct (k =? 2); auto.
Qed.
Print Assumptions fuzz_one_defined.

Example fuzz_one_runs :
  fuzz_one cfg_x86_64 Char_s int32_type 0 [49; 101; 49] [49; 46; 53] [45; 55; 120] = Ok (0x4024000000000000, 0, -7) /\
  fuzz_one cfg_x86_64 Char_s int32_type 3 [-1; 0; 200] [110; 97; 110] [] = Ok (0, 0x7FC00000, 0).
Proof. vm_compute. auto. Qed.
