(** Property C70 for all entry points and character types: calls that run at the same time,
    with texts of any character type and floating-point or integer destinations. *)
From Verif Require Import Machine Config Chars Format FromChars Ints Memory WordLemmas
  SpecFloat FloatBridge SpecApi SpecIntApi FloatApi Props_Pow10 Props_Float Props_Ints Props_Memory Props_Concurrent.
Open Scope Z_scope.

(** *** Specification *)

(** What is called, for which destination *)
Inductive entry :=
| Floats (t : ftype) (o : options)        (* from_chars_advanced with a floating-point destination *)
| FixedWidth (t : ftype) (fmt : Z)        (* from_chars with std::float32_t, std::float64_t *)
| Integers (T : ity) (o : options).       (* from_chars_advanced with an integer destination *)

Definition called (c : cfg) (u : uc) (g : entry) (s : list Z) : res result :=
  match g with
  | Floats t o => from_chars_float_advanced c u t s o
  | FixedWidth t fmt => from_chars_fixed_width c u t s fmt
  | Integers T o => from_chars_int_advanced c u T s o
  end.

Definition destination_bytes (g : entry) : Z :=
  match g with Floats t _ | FixedWidth t _ => object_bytes t | Integers T _ => (i_bits T + 7) / 8 end.

(** The characters in memory: objects of one, two or four bytes in the order of the machine *)
Definition char_bytes (u : uc) : Z := uc_bits u / 8.
Definition character (c : cfg) (u : uc) (m : memory) (a : Z) : Z :=
  let v := object_at (big_endian c) (Z.to_nat (char_bytes u)) a m in
  if uc_signed u then to_signed (uc_bits u) v else v.
Definition characters (c : cfg) (u : uc) (m : memory) (first : Z) (n : nat) : list Z :=
  map (fun i => character c u m (first + char_bytes u * Z.of_nat i)) (seq 0 n).

Record job := {
  j_cfg : cfg; j_char : uc; j_entry : entry;
  j_first : Z; j_length : nat; j_destination : Z;
  j_code : code
}.

Definition job_text (j : job) (m : memory) : list Z := characters (j_cfg j) (j_char j) m (j_first j) (j_length j).
Definition reads_text (j : job) (a : Z) : Prop := j_first j <= a < j_first j + char_bytes (j_char j) * Z.of_nat (j_length j).
Definition owns (j : job) (a : Z) : Prop := j_destination j <= a < j_destination j + destination_bytes (j_entry j).

(** The code reads its text and its destination, writes its destination, and alone it does what
    the library does with the text it finds: it returns the error code and the pointer and
    stores the value, if there is one. *)
Definition carries_out (j : job) : Prop :=
  within (fun a => reads_text j a \/ owns j a) (owns j) (j_code j) /\
  forall m r, bytes m -> called (j_cfg j) (j_char j) (j_entry j) (job_text j m) = Ok r ->
    snd (alone (j_code j) m) =
      (j_first j + char_bytes (j_char j) * (Z.of_nat (j_length j) - Z.of_nat (length (r_ptr r))), r_ec r) /\
    stored (j_cfg j) (destination_bytes (j_entry j)) (j_destination j) (r_value r) m (fst (alone (j_code j) m)).

(** No thread writes where another one reads or writes, and no text overlaps its own
    destination. *)
Definition separate (js : list job) : Prop :=
  (forall j a, In j js -> reads_text j a -> ~ owns j a) /\
  forall i k j j' a, i <> k -> nth_error js i = Some j -> nth_error js k = Some j' ->
    owns j' a -> ~ reads_text j a /\ ~ owns j a.

(** The texts of C12: the 48 smallest values of a signed 32-bit wchar_t are no characters. *)
Definition readable (j : job) (m : memory) : Prop :=
  Z.of_nat (j_length j) <= 2 ^ 59 /\
  match j_entry j with
  | Integers T _ => int_type T
  | _ => j_char j = Wchar_s32 -> Forall (fun ch => - 2 ^ 31 + 48 <= ch) (job_text j m)
  end.

(** *** Characters *)
Lemma object_range big d m : bytes m -> forall size, 0 <= object_at big size d m < 2 ^ (8 * Z.of_nat size).
Proof.
  intros B size. unfold object_at.
  assert (G : forall l, 0 <= fold_right (fun i rest => m (d + Z.of_nat (if big then size - 1 - i else i)%nat) + 256 * rest) 0 l < 2 ^ (8 * Z.of_nat (length l))).
  { induction l as [|i l IH]; [cbn; lia|]. cbn [fold_right length]. pose proof (B (d + Z.of_nat (if big then size - 1 - i else i)%nat)) as X.
    rewrite Nat2Z.inj_succ. replace (8 * Z.succ (Z.of_nat (length l))) with (8 + 8 * Z.of_nat (length l)) by lia. rewrite Z.pow_add_r by lia.
    change (2 ^ 8) with 256. lia. }
  specialize (G (seq 0 size)). rewrite seq_length in G. exact G.
Qed.

Lemma character_unit c u m a : bytes m -> code_unit u (character c u m a).
Proof.
  intros B. unfold character. pose proof (object_range (big_endian c) a m B (Z.to_nat (char_bytes u))) as R.
  set (v := object_at _ _ _ _) in *. clearbody v.
  destruct u; unfold code_unit, uc_min, uc_max; cbn [uc_signed uc_bits];
    match type of R with 0 <= v < 2 ^ (8 * Z.of_nat (Z.to_nat (char_bytes ?u))) =>
      let x := eval vm_compute in (2 ^ (8 * Z.of_nat (Z.to_nat (char_bytes u)))) in change (2 ^ (8 * Z.of_nat (Z.to_nat (char_bytes u)))) with x in R end;
    try lia; unfold to_signed;
    match goal with |- context [v mod ?k] => rewrite (Z.mod_small v k) by (cbn; lia) end;
    match goal with |- context [v <? ?k] => destruct (Z.ltb_spec v k) end; cbn in *; lia.
Qed.

Lemma characters_units c u m first n : bytes m -> Forall (code_unit u) (characters c u m first n).
Proof. intros B. apply Forall_forall. intros x I. apply in_map_iff in I. destruct I as (i & <- & _). apply character_unit. exact B. Qed.

Lemma characters_length c u m first n : length (characters c u m first n) = n.
Proof. unfold characters. rewrite map_length, seq_length. reflexivity. Qed.

(** For char these are the texts of C69. *)
Lemma characters_char c u m first n : u = Char_s \/ u = Char_u -> characters c u m first n = text u m first n.
Proof.
  intros U. unfold characters, text. apply map_ext. intros i. unfold character, object_at.
  assert (O : forall a, object_at (big_endian c) 1 a m = m a).
  { intros a. unfold object_at. cbn [seq fold_right]. destruct (big_endian c); cbn [Nat.sub]; change (Z.of_nat 0) with 0; rewrite ?Z.mul_0_r, ?Z.add_0_r; reflexivity. }
  unfold object_at in O. destruct U as [-> | ->]; change (Z.to_nat (char_bytes _)) with 1%nat; rewrite O;
    (replace (first + char_bytes _ * Z.of_nat i) with (first + Z.of_nat i) by (change (char_bytes Char_s) with 1; change (char_bytes Char_u) with 1; lia)); reflexivity.
Qed.

Lemma char_bytes_pos u : 1 <= char_bytes u <= 4.
Proof. destruct u; vm_compute; split; discriminate. Qed.

Lemma object_local big size d m m' : (forall a, d <= a < d + Z.of_nat size -> m' a = m a) -> object_at big size d m' = object_at big size d m.
Proof.
  intros E. unfold object_at. assert (G : forall l, incl l (seq 0 size) ->
    fold_right (fun i rest => m' (d + Z.of_nat (if big then size - 1 - i else i)%nat) + 256 * rest) 0 l =
    fold_right (fun i rest => m (d + Z.of_nat (if big then size - 1 - i else i)%nat) + 256 * rest) 0 l).
  { induction l as [|j l IH]; intros I; [reflexivity|]. cbn [fold_right]. rewrite IH by (intros x X; apply I; right; exact X). f_equal. apply E.
    assert (J : (j < size)%nat) by (specialize (I j (or_introl eq_refl)); apply in_seq in I; lia). destruct big; lia. }
  apply G, incl_refl.
Qed.

Lemma characters_local c u m m' first n : (forall a, first <= a < first + char_bytes u * Z.of_nat n -> m' a = m a) ->
  characters c u m' first n = characters c u m first n.
Proof.
  intros E. apply map_ext_in. intros i I. apply in_seq in I. unfold character. pose proof (char_bytes_pos u).
  rewrite (object_local _ _ _ m m'); [reflexivity|]. intros a A. apply E. rewrite Z2Nat.id in A by lia. nia.
Qed.

(** *** The theorem *)
Lemma called_defined j m : bytes m -> readable j m -> exists r, called (j_cfg j) (j_char j) (j_entry j) (job_text j m) = Ok r.
Proof.
  intros B (L & R). pose proof (characters_units (j_cfg j) (j_char j) m (j_first j) (j_length j) B) as CU. fold (job_text j m) in CU.
  assert (LEN : Z.of_nat (length (job_text j m)) <= 2 ^ 59) by (unfold job_text; rewrite characters_length; exact L).
  destruct (j_entry j) as [t o|t fmt|T o]; cbn [called].
  - destruct (from_chars_defined (j_cfg j) (j_char j) t o (job_text j m) CU R LEN) as (r & E & _). exists r. exact E.
  - unfold from_chars_fixed_width, from_chars_float.
    destruct (from_chars_defined (j_cfg j) (j_char j) t {| o_format := fmt; o_decimal_point := 46; o_base := 10 |} (job_text j m) CU R LEN) as (r & E & _).
    rewrite E. cbn [bind]. eexists. reflexivity.
  - destruct (from_chars_int_defined (j_cfg j) (j_char j) T o (job_text j m) R CU) as (r & E & _). exists r. exact E.
Qed.

Lemma destination_nonneg j m : readable j m -> 0 <= destination_bytes (j_entry j).
Proof.
  intros (_ & R). destruct (j_entry j) as [t o|t o|T o]; cbn [destination_bytes]; [destruct t; vm_compute; discriminate..|].
  apply Z.div_pos; [|lia]. destruct R as (R & _). destruct (i_signed T); cbn in R; lia.
Qed.

(** C70: any number of calls of any entry point at the same time, with texts of any
    character types.  Under every schedule the accesses come to an end, and then every call
    has returned; a call that has returned has returned the error code and the pointer and
    has stored the value that the call has alone on the memory as it was at the start;
    nothing else has changed. *)
Theorem calls_concurrent :
  forall (js : list job) (m0 : memory),
  bytes m0 -> separate js -> (forall j, In j js -> readable j m0 /\ carries_out j) ->
  exists bound, forall n m ps, schedule n (m0, map j_code js) (m, ps) ->
    (n <= bound)%nat /\
    ((forall s, ~ step (m, ps) s) -> forall p, In p ps -> exists ptr e, p = Return ptr e) /\
    (forall a, (forall j, In j js -> ~ owns j a) -> m a = m0 a) /\
    forall i j ptr e, nth_error js i = Some j -> nth_error ps i = Some (Return ptr e) ->
    exists r,
      called (j_cfg j) (j_char j) (j_entry j) (job_text j m0) = Ok r /\
      e = r_ec r /\
      ptr = j_first j + char_bytes (j_char j) * (Z.of_nat (j_length j) - Z.of_nat (length (r_ptr r))) /\
      match r_value r with
      | Some v => object_at (big_endian (j_cfg j)) (Z.to_nat (destination_bytes (j_entry j))) (j_destination j) m = v mod 2 ^ (8 * destination_bytes (j_entry j))
      | None => forall a, owns j a -> m a = m0 a
      end.
Proof.
  intros js m0 B (_ & ISO) H. exists (total m0 (map j_code js)). intros n m ps SC.
  set (th := fun j => {| reads := fun a => reads_text j a \/ owns j a; writes := owns j; runs := j_code j |}).
  assert (EC : map runs (map th js) = map j_code js) by (rewrite map_map; reflexivity).
  assert (IMPL : forall k, In k (map th js) -> within (reads k) (writes k) (runs k)).
  { intros k I. apply in_map_iff in I. destruct I as (j & <- & I). apply (H j I). }
  assert (OWN : forall k a, In k (map th js) -> writes k a -> reads k a).
  { intros k a I W. apply in_map_iff in I. destruct I as (j & <- & I). right. exact W. }
  assert (ISO' : forall i j k k' a, i <> j -> nth_error (map th js) i = Some k -> nth_error (map th js) j = Some k' -> writes k' a -> ~ reads k a).
  { intros i j k k' a N E E' W RD. rewrite nth_error_map in E, E'. destruct (nth_error js i) as [k0|] eqn:E0; [|discriminate E].
    destruct (nth_error js j) as [k1|] eqn:E1; [|discriminate E']. injection E as <-. injection E' as <-.
    destruct (ISO i j k0 k1 a N E0 E1 W). destruct RD; contradiction. }
  rewrite <- EC in SC. destruct (invariant_all (map th js) m0 IMPL OWN ISO' n (m, ps) SC) as (L & C & T & O). cbn [fst snd] in *. rewrite EC in T.
  split; [lia|]. split.
  { intros ST p I. apply in_split in I. destruct I as (l & l' & ->). destruct p as [ptr e|a k|a b k]; [eauto| |].
    - destruct (ST _ (step_read m l a k l')).
    - destruct (ST _ (step_write m l a b k l')). }
  split; [intros a NA; apply O; intros k I; apply in_map_iff in I; destruct I as (j & <- & I); apply NA; exact I|].
  intros i j ptr e E1 E2. pose proof (nth_error_In _ _ E1) as IJ. destruct (H j IJ) as (RD & _ & RUN).
  assert (E1' : nth_error (map th js) i = Some (th j)) by (rewrite nth_error_map, E1; reflexivity).
  destruct (C i (th j) _ E1' E2) as (_ & S1 & S2). unfold th in S1, S2. cbn [alone fst snd runs reads] in S1, S2.
  destruct (called_defined j m0 B RD) as (r & ER). destruct (RUN m0 r B ER) as (R1 & _ & ST). rewrite R1 in S1. injection S1 as -> ->.
  exists r. split; [exact ER|]. split; [reflexivity|]. split; [reflexivity|]. destruct (r_value r) as [v|].
  - rewrite <- ST. apply object_local. intros a A. apply S2. right. unfold owns. rewrite Z2Nat.id in A; [exact A|].
    exact (destination_nonneg j m0 RD).
  - intros a D. rewrite (S2 a (or_intror D)). apply ST.
Qed.
Print Assumptions calls_concurrent.

(** *** Such code exists for every call *)
Definition job_code (c : cfg) (u : uc) (g : entry) (first : Z) (n : nat) (d : Z) : code :=
  read_bytes first (Z.to_nat (char_bytes u * Z.of_nat n)) (fun l =>
    match called c u g (characters c u (fun a => nth (Z.to_nat (a - first)) l 0) first n) with
    | Ok r =>
        let k := Return (first + char_bytes u * (Z.of_nat n - Z.of_nat (length (r_ptr r)))) (r_ec r) in
        match r_value r with Some v => write_object c (destination_bytes g) d v k | None => k end
    | UB => Return 0 InvalidArgument
    end).

Definition job_of (c : cfg) (u : uc) (g : entry) (first : Z) (n : nat) (d : Z) : job :=
  {| j_cfg := c; j_char := u; j_entry := g; j_first := first; j_length := n; j_destination := d; j_code := job_code c u g first n d |}.

Theorem job_carried_out :
  forall (c : cfg) (u : uc) (g : entry) (first : Z) (n : nat) (d : Z),
  0 <= destination_bytes g -> carries_out (job_of c u g first n d).
Proof.
  intros c u g first n d SZ. unfold carries_out, job_text, job_of. cbn [j_cfg j_char j_entry j_first j_length j_destination j_code].
  pose proof (char_bytes_pos u) as CB. split.
  - unfold job_code. apply read_within.
    + intros i I. left. unfold reads_text. cbn [j_first j_char j_length]. nia.
    + intros l. destruct (called c u g _) as [r|]; [|constructor]. cbv zeta. destruct (r_value r); [|constructor].
      apply object_within; [intros a A; exact A|constructor].
  - intros m r B E. unfold job_code. rewrite alone_read.
    rewrite (characters_local c u m).
    + rewrite E. cbv zeta. destruct (r_value r) as [v|]; [|split; [reflexivity|split; reflexivity]].
      match goal with |- context [write_object ?a ?b ?x ?y ?z] => destruct (alone_object a b x y z m) as (H1 & H2) end.
      cbn [alone fst snd] in H1, H2. split; [exact H1|]. split.
      * intros a A. rewrite H2. apply (after_outside c (destination_bytes g) d [v]). exact A.
      * rewrite (object_same _ _ _ _ _ H2). apply object_store. exact SZ.
    + intros a A. assert (I : (Z.to_nat (a - first) < Z.to_nat (char_bytes u * Z.of_nat n))%nat) by nia.
      set (f := fun i => m (first + Z.of_nat i)).
      rewrite (nth_indep _ 0 (f 0%nat)) by (rewrite map_length, seq_length; exact I).
      rewrite map_nth, seq_nth by exact I. unfold f. f_equal. lia.
Qed.
Print Assumptions job_carried_out.

(** Three threads: the UTF-16 text "15" at 0 as a double and as an int, the char text at 4
    as a std::float32_t. *)
Definition three_jobs : list job :=
  let o := {| o_format := 5; o_decimal_point := 46; o_base := 10 |} in
  [job_of cfg_x86_64 Char16 (Floats F64 o) 0 2 16;
   job_of cfg_x86_64 Char16 (Integers int32_type o) 0 2 24;
   job_of cfg_x86_64 Char_s (FixedWidth F32 5) 4 3 32].

Example three_jobs_meet_the_hypotheses :
  let m := fun a => if a =? 0 then 49 else if a =? 2 then 53 else if a =? 4 then 55 else 0 in
  bytes m /\ separate three_jobs /\ (forall j, In j three_jobs -> readable j m /\ carries_out j) /\
  map (fun j => called (j_cfg j) (j_char j) (j_entry j) (job_text j m)) three_jobs =
    [Ok {| r_ptr := []; r_ec := Success; r_value := Some 0x402e000000000000 |};
     Ok {| r_ptr := []; r_ec := Success; r_value := Some 15 |};
     Ok {| r_ptr := [0; 0]; r_ec := Success; r_value := Some 0x40e00000 |}].
Proof.
  cbv zeta. split; [|split; [|split]].
  - intros a. destruct (a =? 0); [lia|]. destruct (a =? 2); [lia|]. destruct (a =? 4); lia.
  - assert (B : forall i j, nth_error three_jobs i = Some j -> (i < 3)%nat /\
      match i with
      | 0%nat => forall a, (reads_text j a <-> 0 <= a < 4) /\ (owns j a <-> 16 <= a < 24)
      | 1%nat => forall a, (reads_text j a <-> 0 <= a < 4) /\ (owns j a <-> 24 <= a < 28)
      | _ => forall a, (reads_text j a <-> 4 <= a < 7) /\ (owns j a <-> 32 <= a < 36)
      end).
    { intros [|[|[|i]]] j E; [injection E as <-; split; [lia|]; intros a; split; reflexivity..|destruct i; discriminate E]. }
    split.
    + intros j a I RD OW. apply In_nth_error in I. destruct I as (i & E). destruct (B _ _ E) as (_ & E1).
      destruct i as [|[|i]]; destruct (E1 a) as (R & O); apply R in RD; apply O in OW; lia.
    + intros i k j j' a N E E' OW. destruct (B _ _ E) as (LI & E1). destruct (B _ _ E') as (LK & E2). clear E E'.
      destruct i as [|[|i]]; destruct k as [|[|k]]; try (exfalso; lia); destruct (E1 a) as (R1 & O1); destruct (E2 a) as (R2 & O2); apply O2 in OW;
        (split; [rewrite R1|rewrite O1]; lia).
  - intros j [<-|[<-|[<-|[]]]]; (split; [split; [cbn; lia|]|apply job_carried_out; vm_compute; discriminate]).
    1,3: discriminate. unfold int_type. cbn. intuition.
  - vm_compute. reflexivity.
Qed.
