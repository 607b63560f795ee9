(** The table in fast_table.h is what script/table_generation.py prints, and no
    product with an entry is ambiguous. *)
From Coq Require Import ZArith List Lia.
From Verif Require Import Machine Config FastTable DecToBin WordLemmas EiselTable TableScript TableProof.
Import ListNotations.
Open Scope Z_scope.

(** ** The table is what the script prints *)
Lemma te_cut_pos q T : 0 <= q -> 2 ^ 127 <= T < 2 ^ 128 ->
  T * te_B q <= te_A q < (T + 1) * te_B q ->
  cut_at (5 ^ q) 1 (Z.max (- te_E q) 0) (Z.max (te_E q) 0) T.
Proof.
  intros Hq HT H. unfold te_A, te_B in H. rewrite (Z.max_l q 0) in H by lia.
  rewrite (Z.max_r (- q) 0) in H by lia. change (5 ^ 0) with 1 in H. rewrite !Z.mul_1_l in H.
  split; [lia|]. split; [lia|]. split; [exact HT|]. rewrite !Z.mul_1_r. exact H.
Qed.

Lemma te_cut_neg q T : q < 0 -> 2 ^ 127 <= T < 2 ^ 128 ->
  T * te_B q <= te_A q < (T + 1) * te_B q ->
  cut_at 1 (5 ^ (- q)) (Z.max (- te_E q) 0) (Z.max (te_E q) 0) T.
Proof.
  intros Hq HT H. unfold te_A, te_B in H. rewrite (Z.max_r q 0) in H by lia.
  rewrite (Z.max_l (- q) 0) in H by lia. change (5 ^ 0) with 1 in H. rewrite !Z.mul_1_l in H.
  split; [lia|]. split; [lia|]. split; [exact HT|]. rewrite !Z.mul_1_l, <- !Z.mul_assoc. exact H.
Qed.

Lemma te_B_pos q : 0 < te_B q.
Proof. unfold te_B. apply Z.mul_pos_pos; apply Z.pow_pos_nonneg; lia. Qed.

Lemma word_pair Th Tl : 2 ^ 63 <= Th < 2 ^ 64 -> 0 <= Tl < 2 ^ 64 ->
  2 ^ 127 <= Th * 2 ^ 64 + Tl < 2 ^ 128.
Proof. intros. change (2 ^ 127) with (2 ^ 63 * 2 ^ 64). change (2 ^ 128) with (2 ^ 64 * 2 ^ 64). lia. Qed.

Lemma script_is_entry fuel q Th Tl : -342 <= q <= 308 -> 2100 <= Z.of_nat fuel ->
  entry_ok q Th Tl -> script_entry fuel q = Some (Th * 2 ^ 64 + Tl).
Proof.
  intros Hq F E. pose proof (word_pair _ _ (eo_Th _ _ _ E) (eo_Tl _ _ _ E)) as W.
  set (T := Th * 2 ^ 64 + Tl) in *. pose proof (te_B_pos q) as BP.
  destruct (Z_lt_ge_dec q 0) as [N|P].
  - destruct (Z_lt_ge_dec q (-27)) as [N2|P2].
    + destruct (script_entry_neg fuel q N2) as (T' & a & b & H1 & H2); [lia|].
      assert (C : cut_at 1 (5 ^ (- q)) (Z.max (- te_E q) 0) (Z.max (te_E q) 0) T).
      { apply te_cut_neg; [exact N|exact W|]. apply (eo_trunc _ _ _ E). left. exact N2. }
      rewrite H1. f_equal. refine (proj2 (cut_at_unique _ _ _ _ _ _ _ _ _ _ H2 C)); [apply Z.pow_pos_nonneg; lia|lia].
    + destruct (script_entry_up fuel q) as (T' & b & H1 & H2 & H3); [lia|lia|].
      destruct (eo_up _ _ _ E) as (U & U1 & _); [lia|]. fold T in U.
      assert (C : cut_at 1 (5 ^ (- q)) (Z.max (- te_E q) 0) (Z.max (te_E q) 0) (T - 1)).
      { apply te_cut_neg; [exact N| |replace (T - 1 + 1) with T by lia; lia].
        split; [|lia]. pose proof (eo_Th _ _ _ E). unfold T.
        change (2 ^ 127) with (2 ^ 63 * 2 ^ 64). lia. }
      rewrite H1. f_equal.
      assert (T' - 1 = T - 1); [|lia].
      refine (proj2 (cut_at_unique _ _ _ _ _ _ _ _ _ _ H2 C)); [apply Z.pow_pos_nonneg; lia|lia].
  - destruct (script_entry_pos fuel q) as (T' & a & b & H1 & H2); [lia|lia|lia|].
    assert (C : cut_at (5 ^ q) 1 (Z.max (- te_E q) 0) (Z.max (te_E q) 0) T).
    { apply te_cut_pos; [lia|exact W|]. destruct (Z_le_gt_dec q 55) as [S|S].
      - pose proof (eo_exact _ _ _ E ltac:(lia)) as X. fold T in X. rewrite <- X. lia.
      - apply (eo_trunc _ _ _ E). right. lia. }
    rewrite H1. f_equal. refine (proj2 (cut_at_unique _ _ _ _ _ _ _ _ _ _ H2 C)); [lia|apply Z.pow_pos_nonneg; lia].
Qed.

Lemma format_pair Th Tl : 0 <= Tl < 2 ^ 64 -> format_words (Th * 2 ^ 64 + Tl) = [Th; Tl].
Proof.
  intros H. unfold format_words. rewrite shl1.
  rewrite Z.div_add_l, Z.div_small by lia. rewrite Z.add_0_r, (Z.add_comm (Th * 2 ^ 64)), Z.mod_add, Z.mod_small by lia. reflexivity.
Qed.

Lemma script_words_list fuel : forall n l q,
  length l = (2 * n)%nat ->
  (forall i Th Tl, nth_error l (2 * i) = Some Th -> nth_error l (2 * i + 1) = Some Tl ->
     0 <= Tl < 2 ^ 64 /\ script_entry fuel (q + Z.of_nat i) = Some (Th * 2 ^ 64 + Tl)) ->
  script_words fuel n q = Some l.
Proof.
  induction n as [|n IH]; intros l q L H.
  - destruct l; [reflexivity|discriminate L].
  - destruct l as [|Th [|Tl l]]; [discriminate L|cbn [length] in L; lia|].
    cbn [script_words]. destruct (H 0%nat Th Tl eq_refl eq_refl) as (R & E).
    rewrite Z.add_0_r in E. rewrite E.
    rewrite (IH l (q + 1)).
    + rewrite (format_pair _ _ R). reflexivity.
    + cbn [length] in L. lia.
    + intros i a b A B. destruct (H (S i) a b) as (R' & E').
      * replace (2 * S i)%nat with (S (S (2 * i))) by lia. exact A.
      * replace (2 * S i + 1)%nat with (S (S (2 * i + 1))) by lia. exact B.
      * split; [exact R'|]. rewrite <- E'. f_equal. lia.
Qed.

Lemma table_length : length power_of_five_128 = (2 * 651)%nat.
Proof. reflexivity. Qed.

Lemma table_lookup i Th Tl :
  nth_error power_of_five_128 (2 * i) = Some Th -> nth_error power_of_five_128 (2 * i + 1) = Some Tl ->
  -342 <= -342 + Z.of_nat i <= 308 /\ entry_ok (-342 + Z.of_nat i) Th Tl.
Proof.
  intros A B.
  assert (L : (i < 651)%nat).
  { assert (2 * i < length power_of_five_128)%nat by (apply nth_error_Some; congruence).
    rewrite table_length in H. lia. }
  assert (Q : -342 <= -342 + Z.of_nat i <= 308) by lia. split; [exact Q|].
  destruct (table_entry _ Q) as (a & b & H1 & H2 & H3).
  unfold nth_res in H1, H2.
  replace (2 * (-342 + Z.of_nat i + 342)) with (Z.of_nat (2 * i)) in H1, H2 by lia.
  replace (Z.of_nat (2 * i) + 1) with (Z.of_nat (2 * i + 1)) in H2 by lia.
  destruct (Z.of_nat (2 * i) <? 0) eqn:C1; [apply Z.ltb_lt in C1; lia|].
  destruct (Z.of_nat (2 * i + 1) <? 0) eqn:C2; [apply Z.ltb_lt in C2; lia|].
  rewrite Nat2Z.id in H1, H2. rewrite A in H1. rewrite B in H2.
  injection H1 as <-. injection H2 as <-. exact H3.
Qed.

(** ** No ambiguous products *)
Definition more_certs : list (Z * Z * Z * Z) :=
  [(16590243248068835797, 20056373416277685, 7450580596923828125, 9007199254740992);
   (17187141052578077563, 25972473229775241, 1490116119384765625, 2251799813685248);
   (18382639375107232127, 34723824020674477, 298023223876953125, 562949953421312);
   (18434291575564888266, 21763370167973473, 59604644775390625, 70368744177664);
   (18435976879652131189, 27206699779821541, 11920928955078125, 17592186044416);
   (18445102281792118506, 34025208120561529, 2384185791015625, 4398046511104);
   (18446667253360385548, 21267559364726109, 476837158203125, 549755813888);
   (18446665046156385942, 26584446024991441, 95367431640625, 137438953472);
   (18446732511285700018, 33230679065611797, 19073486328125, 34359738368);
   (18446742933303178269, 20769186150155881, 3814697265625, 4294967296);
   (18446743461728338076, 25961483431387149, 762939453125, 1073741824);
   (18446744049550071054, 32451855323340865, 152587890625, 268435456);
   (18446744052894709057, 20282409580765509, 30517578125, 33554432);
   (18446744070465554978, 25353012000106073, 6103515625, 8388608);
   (18446744073610266787, 31691265005535165, 1220703125, 2097152);
   (18446744073501274921, 19807040628342449, 244140625, 262144);
   (18446744073692599684, 24758800785684853, 48828125, 65536);
   (18446744073705945611, 30948500982128457, 9765625, 16384);
   (18446744073708111763, 19342813113832557, 1953125, 2048);
   (18446744073709400177, 24178516392292385, 390625, 512);
   (18446744073709475708, 30223145490365605, 78125, 128);
   (18446744073709540039, 18889465931478569, 15625, 16);
   (18446744073709550781, 23611832414348225, 3125, 4);
   (18446744073709551249, 29514790517935282, 625, 1);
   (18446744073709550999, 18446744073709551, 1000, 1);
   (18446744073709551199, 23058430092136939, 800, 1);
   (18446744073709551359, 28823037615171174, 640, 1);
   (18446744073709551615, 18014398509481984, 1024, 1);
   (18446744073709548339, 22517998136852476, 4096, 5);
   (18446744073709544407, 28147497671065589, 16384, 25);
   (18446744073709520683, 35184372088831941, 65536, 125);
   (18446744073709322607, 21990232555519727, 524288, 625);
   (18446744073708771811, 27487790694398838, 2097152, 3125);
   (18446744073705201351, 34359738367991897, 8388608, 15625);
   (18446744073666738523, 21474836479950159, 67108864, 78125);
   (18446744073660723679, 26843545599928946, 268435456, 390625);
   (18446744072733418387, 33554431998224424, 1073741824, 1953125);
   (18446744068360364215, 20971519993918678, 8589934592, 9765625);
   (18446744069203740299, 26214399993596857, 34359738368, 48828125);
   (18446744065936441679, 32767999986192183, 137438953472, 244140625);
   (18446743000131092547, 20479998808088476, 1099511627776, 1220703125);
   (18446740340556650919, 25599994819209619, 4398046511104, 6103515625);
   (18446737169813855931, 31999988023650061, 17592186044416, 30517578125);
   (18446654732000190399, 19999903135524617, 140737488355328, 152587890625);
   (18446698057870008307, 24999937636908498, 562949953421312, 762939453125);
   (18444708250709326231, 31246551181688062, 2251799813685248, 3814697265625);
   (18432826110227395051, 19516513782964914, 18014398509481984, 19073486328125);
   (18407931683994156335, 24362694729920916, 72057594037927936, 95367431640625);
   (18381335520536130211, 30409368750839604, 288230376151711744, 476837158203125);
   (17280740858468020359, 17867867260847138, 2305843009213693952, 2384185791015625);
   (11757183004862902299, 15195802874782097, 9223372036854775808, 11920928955078125);
   (15264157452569266591, 24660576390082243, 6365173242280570050, 10283491995226139);
   (8898984210288696541, 8985677746785065, 10184277187648912080, 10283491995226139);
   (10935839647818478957, 13802970182287866, 8147421750119129664, 10283491995226139);
   (16425542666025610257, 25914936912534629, 5446136629611347657, 8592488543185036);
   (14229661458742757737, 14031529524165444, 10892273259222695314, 10740610678981295);
   (14405683190875259346, 17756375441064017, 14581704923007760955, 17973338976921229);
   (11489342206273707155, 17702134557099714, 11665363938406208764, 17973338976921229);
   (4595736882509482862, 8851067278549857, 16437122553048193235, 31656746524478287);
   (10499786136918809939, 12638657831721196, 15766322786238243018, 18978020729306893);
   (16812972683758118390, 25297349645167491, 6313186546839308451, 9499027355515996);
   (13450378147006494712, 25297349645167491, 6313186546839308451, 11873784194394995);
   (7137191600167186261, 8389728406732810, 12955975115009768026, 15229675557088119);
   (9464705006104218967, 13907134083593667, 14119731817978284379, 20747081233948976);
   (1923871277692061422, 3533593466619179, 17967474373362407223, 33001038475674578);
   (11804280815805910302, 13550649818847413, 10010936112940619765, 11491991061723172);
   (17184314924401781913, 24658282612775170, 2002187222588123953, 2872997765430793);
   (17051736098479599263, 30585051659355533, 8008748890352495812, 14364988827153965);
   (9042987208127103451, 10137539270125980, 11005400782938572609, 12337480973128769);
   (16038710392852540848, 22475020243254749, 6995723184725437397, 9803096155597274);
   (2218050246305753901, 3885188004929419, 18427546862062382596, 32278116398852023);
   (12114100308374341343, 13262086061563873, 6483798646302651478, 7098232098480651);
   (16345778289848316875, 22368470718514044, 14093657625019640929, 19286543736972433);
   (3269155657969663375, 5592117679628511, 17144762604442603216, 29327306529320033);
   (5230649052751461400, 5592117679628511, 15183269209660805191, 16232522450964329);
   (4184519242201169120, 5592117679628511, 16229399020211097471, 21688682483612539);
   (3347615393760935296, 5592117679628511, 15392495171770863647, 25712823684608546);
   (15129914451893539795, 15796367739740218, 3478905753699597222, 3632147081337881);
   (6051965780757415918, 7898183869870109, 16035760178535318321, 20927643508149866);
   (17916937335796885296, 29228367812531249, 786365723404097297, 1282818942102412);
   (17950832196296355803, 18302288364810059, 1572731446808194594, 1603523677628015);
   (16378100749488161209, 20873455858977555, 4533805307344187917, 5778214849423526);
   (7458001361264102067, 11881281641844659, 16525611975952477901, 26326818765403474)].

Fixpoint check_more (q : Z) (l : list Z) (cs : list (Z * Z * Z * Z)) : bool :=
  match cs, l with
  | [], _ => true
  | c :: cs, Th :: Tl :: l => check_cert (Th * 2 ^ 64 + Tl) c && check_more (q + 1) l cs
  | _, _ => false
  end.

Lemma check_more_ok : check_more (-27) (skipn 630 power_of_five_128) more_certs = true.
Proof. vm_cast_no_check (eq_refl true). Qed.

Lemma check_more_nth : forall cs l q i Th Tl,
  check_more q l cs = true -> (i < length cs)%nat ->
  nth_error l (2 * i) = Some Th -> nth_error l (2 * i + 1) = Some Tl ->
  exists c, check_cert (Th * 2 ^ 64 + Tl) c = true.
Proof.
  induction cs as [|c cs IH]; intros l q i Th Tl H L A B; [cbn in L; lia|].
  destruct l as [|a [|b l]]; cbn [check_more] in H; try discriminate H.
  apply andb_prop in H. destruct H as [H1 H2]. destruct i as [|i].
  - injection A as <-. injection B as <-. exists c. exact H1.
  - replace (2 * S i)%nat with (S (S (2 * i))) in A by lia.
    replace (2 * S i + 1)%nat with (S (S (2 * i + 1))) in B by lia.
    cbn [nth_error] in A, B. cbn [length] in L.
    exact (IH l (q + 1) i Th Tl H2 ltac:(lia) A B).
Qed.

Lemma nth_error_skipn_eq {A} (l : list A) : forall k i, nth_error (skipn k l) i = nth_error l (k + i).
Proof.
  induction l as [|x l IH]; intros k i.
  - rewrite skipn_nil. destruct i, k; reflexivity.
  - destruct k; [reflexivity|]. cbn [skipn]. rewrite IH. reflexivity.
Qed.

Lemma no_ambiguous_product i Th Tl w :
  nth_error power_of_five_128 (2 * i) = Some Th -> nth_error power_of_five_128 (2 * i + 1) = Some Tl ->
  0 < w < 2 ^ 64 -> (w * (Th * 2 ^ 64 + Tl)) mod 2 ^ 137 < 2 ^ 137 - 2 ^ 64.
Proof.
  intros A B W. destruct (table_lookup i Th Tl A B) as (Q & E).
  set (q := -342 + Z.of_nat i) in *.
  destruct (Z_lt_ge_dec q (-27)) as [N|N]; [apply (proj2 (eo_trunc _ _ _ E ltac:(lia))); exact W|].
  destruct (Z_lt_ge_dec 55 q) as [M|M]; [apply (proj2 (eo_trunc _ _ _ E ltac:(lia))); exact W|].
  set (j := Z.to_nat (q + 27)).
  destruct (check_more_nth more_certs (skipn 630 power_of_five_128) (-27) j Th Tl check_more_ok) as (c & C).
  - change (length more_certs) with 83%nat. unfold j. lia.
  - rewrite nth_error_skipn_eq. rewrite <- A. f_equal. unfold j, q. lia.
  - rewrite nth_error_skipn_eq. rewrite <- B. f_equal. unfold j, q. lia.
  - exact (cert_sound _ c w C W).
Qed.

(** ** The script finds no solution *)
Lemma continued_fraction_ends : forall k fuel n d, 0 <= n -> 0 <= d < 2 ^ (Z.of_nat k) ->
  (2 * k + 1 <= fuel)%nat ->
  exists cf, continued_fraction fuel n d = Some cf /\ Forall (fun a => 0 <= a) cf.
Proof.
  induction k as [|k IH]; intros fuel n d Hn Hd Hf.
  - change (2 ^ Z.of_nat 0) with 1 in Hd. assert (d = 0) as -> by lia.
    destruct fuel; [lia|]. exists []. split; [reflexivity|constructor].
  - destruct fuel as [|[|fuel]]; try lia. cbn [continued_fraction].
    destruct (Z.eqb_spec d 0) as [->|D]; [exists []; split; [reflexivity|constructor]|].
    pose proof (Z.mod_pos_bound n d ltac:(lia)) as R.
    assert (P : 0 <= n / d) by (apply Z.div_pos; lia).
    destruct (Z.eqb_spec (n mod d) 0) as [E|E].
    + exists [n / d]. split; [reflexivity|]. constructor; [exact P|constructor].
    + set (r := n mod d) in *. pose proof (Z.mod_pos_bound d r ltac:(lia)) as R2.
      assert (P2 : 0 <= d / r) by (apply Z.div_pos; lia).
      assert (H2 : 2 * (d mod r) < d).
      { pose proof (Z.div_mod d r ltac:(lia)).
        assert (1 <= d / r) by (apply Z.div_le_lower_bound; lia). nia. }
      destruct (IH fuel r (d mod r)) as (cf & C & F); [lia| |lia|].
      { rewrite Nat2Z.inj_succ, Z.pow_succ_r in Hd by lia. lia. }
      rewrite C. exists (n / d :: d / r :: cf). split; [reflexivity|].
      constructor; [exact P|]. constructor; [exact P2|exact F].
Qed.

Lemma convergents_nonneg : forall cf p2 q2 p1 q1, 0 <= q2 -> 0 <= q1 -> Forall (fun a => 0 <= a) cf ->
  Forall (fun pq => 0 <= snd pq) (convergents_from p2 q2 p1 q1 cf).
Proof.
  induction cf as [|a cf IH]; intros p2 q2 p1 q1 H2 H1 F; cbn [convergents_from]; constructor.
  - inversion F; subst. cbn [snd]. nia.
  - inversion F; subst. apply IH; [exact H1|nia|assumption].
Qed.

Lemma solutions_none tq : (forall w, 0 < w < 2 ^ 64 -> (w * tq) mod 2 ^ 137 < 2 ^ 137 - 2 ^ 64) ->
  forall l, Forall (fun pq : Z * Z => 0 <= snd pq) l -> solutions tq l = [].
Proof.
  intros H. induction l as [|[p w] l IH]; intros F; [reflexivity|].
  inversion F as [|? ? W F']; subst. cbn [snd] in W. cbn [solutions].
  destruct (Z.leb_spec (2 ^ 64) w) as [|L]; [reflexivity|].
  destruct (Z.ltb_spec (2 ^ 137 - 2 ^ 64) ((tq * w) mod 2 ^ 137)) as [G|_]; [exfalso|exact (IH F')].
  destruct (Z.eq_dec w 0) as [->|N].
  - rewrite Z.mul_0_r, Z.mod_0_l in G by lia. lia.
  - specialize (H w ltac:(lia)). rewrite Z.mul_comm in H. lia.
Qed.

Lemma nth_res_inv {A} (l : list A) i a : nth_res l i = Ok a -> nth_error l (Z.to_nat i) = Some a.
Proof.
  unfold nth_res. destruct (i <? 0); [discriminate|].
  destruct (nth_error l (Z.to_nat i)); [|discriminate]. intros E. injection E as <-. reflexivity.
Qed.

Lemma search_none fuel : 2100 <= Z.of_nat fuel -> forall n q, -342 <= q -> q + Z.of_nat n <= 309 ->
  search fuel n q = Some [].
Proof.
  intros F. induction n as [|n IH]; intros q H1 H2; [reflexivity|].
  cbn [search].
  destruct (table_entry q ltac:(lia)) as (Th & Tl & N1 & N2 & E).
  rewrite (script_is_entry fuel q Th Tl ltac:(lia) F E).
  destruct (continued_fraction_ends 138 fuel (Th * 2 ^ 64 + Tl) (2 ^ 137)) as (cf & C & CF).
  - pose proof (word_pair _ _ (eo_Th _ _ _ E) (eo_Tl _ _ _ E)). lia.
  - change (Z.of_nat 138) with 138. lia.
  - lia.
  - rewrite C. rewrite IH by lia.
    rewrite solutions_none; [reflexivity| |apply convergents_nonneg; [lia|lia|exact CF]].
    intros w W.
    apply (no_ambiguous_product (Z.to_nat (q + 342)) Th Tl w); [| |exact W].
    + apply nth_res_inv in N1. rewrite <- N1. f_equal. lia.
    + apply nth_res_inv in N2. rewrite <- N2. f_equal. lia.
Qed.
