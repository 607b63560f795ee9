(** Property C70: calls that run at the same time. *)
From Verif Require Import Machine Config Chars Format ParseNumber DecToBin DigitComp FromChars Memory WordLemmas
  SpecFloat FloatBridge SpecApi FloatApi Props_Pow10 Props_Float Props_Memory.
Open Scope Z_scope.

(** *** Threads *)

(** The code of a call as the memory sees it: reads and writes of single bytes, in any
    order and as often as it likes, and at last the returned pointer and error code.
    What it does next may depend on the bytes it has read. *)
Inductive code :=
| Return (ptr : Z) (e : ec)
| Read (a : Z) (k : Z -> code)
| Write (a b : Z) (k : code).

Definition written (a b : Z) (m : memory) : memory := fun x => if x =? a then b else m x.

(** The code on its own. *)
Fixpoint alone (p : code) (m : memory) : memory * (Z * ec) :=
  match p with
  | Return ptr e => (m, (ptr, e))
  | Read a k => alone (k (m a)) m
  | Write a b k => alone k (written a b m)
  end.

Fixpoint accesses (p : code) (m : memory) : nat :=
  match p with
  | Return _ _ => 0
  | Read a k => S (accesses (k (m a)) m)
  | Write a b k => S (accesses k (written a b m))
  end.

(** It reads only where [R] and writes only where [W] holds, whatever it reads. *)
Inductive within (R W : Z -> Prop) : code -> Prop :=
| within_return ptr e : within R W (Return ptr e)
| within_read a k : R a -> (forall b, within R W (k b)) -> within R W (Read a k)
| within_write a b k : W a -> within R W k -> within R W (Write a b k).

(** One of the threads makes an access to the memory they share. *)
Inductive step : memory * list code -> memory * list code -> Prop :=
| step_read m l a k l' : step (m, l ++ Read a k :: l') (m, l ++ k (m a) :: l')
| step_write m l a b k l' : step (m, l ++ Write a b k :: l') (written a b m, l ++ k :: l').

(** A schedule: [n] accesses, by the threads in any order. *)
Inductive schedule : nat -> memory * list code -> memory * list code -> Prop :=
| schedule_none s : schedule 0 s s
| schedule_more n s s' s'' : schedule n s s' -> step s' s'' -> schedule (S n) s s''.

(** *** Frame *)
Lemma alone_frame (R W : Z -> Prop) p : within R W p -> (forall a, W a -> R a) ->
  forall m m', (forall a, R a -> m' a = m a) ->
  snd (alone p m') = snd (alone p m) /\ accesses p m' = accesses p m /\
  (forall a, R a -> fst (alone p m') a = fst (alone p m) a).
Proof.
  intros WI WR. induction WI as [ptr e|a k Ra WI IH|a b k Wa WI IH]; intros m m' E; cbn [alone accesses fst snd].
  - split; [reflexivity|]. split; [reflexivity|exact E].
  - rewrite (E a Ra). destruct (IH (m a) m m' E) as (H1 & H2 & H3). split; [exact H1|]. split; [rewrite H2; reflexivity|exact H3].
  - destruct (IH (written a b m) (written a b m')) as (H1 & H2 & H3).
    { intros x Rx. unfold written. destruct (x =? a); [reflexivity|apply E; exact Rx]. }
    split; [exact H1|]. split; [rewrite H2; reflexivity|exact H3].
Qed.

Lemma nth_middle A (l l' : list A) x y i : nth_error (l ++ y :: l') i =
  if (i =? length l)%nat then Some y else nth_error (l ++ x :: l') i.
Proof.
  destruct (Nat.eqb_spec i (length l)) as [-> |N].
  - rewrite nth_error_app2, Nat.sub_diag by lia. reflexivity.
  - destruct (Nat.lt_ge_cases i (length l)).
    + rewrite !nth_error_app1 by lia. reflexivity.
    + rewrite !nth_error_app2 by lia. destruct (i - length l)%nat eqn:D; [lia|reflexivity].
Qed.

Definition total (m : memory) (ps : list code) : nat := fold_right (fun p n => (accesses p m + n)%nat) 0%nat ps.

Lemma total_app m l l' : total m (l ++ l') = (total m l + total m l')%nat.
Proof. induction l as [|p l IH]; [reflexivity|]. cbn [total fold_right app] in *. unfold total in IH. rewrite IH. unfold total. lia. Qed.

Lemma total_same m m' ps : (forall p, In p ps -> accesses p m' = accesses p m) -> total m' ps = total m ps.
Proof.
  induction ps as [|p ps IH]; intros E; [reflexivity|]. cbn [total fold_right]. unfold total in IH.
  rewrite E by (left; reflexivity). rewrite IH by (intros q I; apply E; right; exact I). reflexivity.
Qed.

(** A thread: where it may read and write, and its code. *)
Record thread := { reads : Z -> Prop; writes : Z -> Prop; runs : code }.

Section Run.
Variable ks : list thread.
Variable m0 : memory.
Hypothesis IMPL : forall k, In k ks -> within (reads k) (writes k) (runs k).
Hypothesis OWN : forall k a, In k ks -> writes k a -> reads k a.
Hypothesis ISO : forall i j k k' a, i <> j -> nth_error ks i = Some k -> nth_error ks j = Some k' -> writes k' a -> ~ reads k a.

(** Every thread still has before it what it would have alone. *)
Definition on_course (m : memory) (k : thread) (p : code) : Prop :=
  within (reads k) (writes k) p /\ snd (alone p m) = snd (alone (runs k) m0) /\
  forall a, reads k a -> fst (alone p m) a = fst (alone (runs k) m0) a.

Definition invariant (n : nat) (s : memory * list code) : Prop :=
  length (snd s) = length ks /\
  (forall i k p, nth_error ks i = Some k -> nth_error (snd s) i = Some p -> on_course (fst s) k p) /\
  (n + total (fst s) (snd s) = total m0 (map runs ks))%nat /\
  (forall a, (forall k, In k ks -> ~ writes k a) -> fst s a = m0 a).

Lemma invariant_start : invariant 0 (m0, map runs ks).
Proof.
  split; [apply map_length|]. split; [|split; [reflexivity|reflexivity]]. cbn [fst snd].
  intros i k p E E'. rewrite nth_error_map, E in E'. injection E' as <-.
  split; [exact (IMPL k (nth_error_In _ _ E))|]. split; reflexivity.
Qed.

Lemma invariant_step n s s' : invariant n s -> step s s' -> invariant (S n) s'.
Proof.
  intros (L & C & T & O) ST. destruct ST as [m l a k l'|m l a b k l']; cbn [fst snd] in *.
  - assert (LK : exists kk, nth_error ks (length l) = Some kk).
    { destruct (nth_error ks (length l)) eqn:E; [eauto|]. apply nth_error_None in E. rewrite app_length in L. cbn [length] in L. lia. }
    destruct LK as (kk & LK).
    split; [cbn [snd]; rewrite app_length in *; cbn [length] in *; exact L|]. unfold invariant; cbn [fst snd]. split; [|split; [|exact O]].
    + intros i k1 p E1 E2. rewrite (nth_middle _ l l' (Read a k)) in E2. destruct (Nat.eqb_spec i (length l)) as [-> |NE]; [|exact (C i k1 p E1 E2)].
      injection E2 as <-. assert (EP : nth_error (l ++ Read a k :: l') (length l) = Some (Read a k)) by (rewrite nth_error_app2, Nat.sub_diag by lia; reflexivity).
      destruct (C _ _ _ E1 EP) as (WI & S1 & S2). inversion WI; subst. split; [auto|]. split; [exact S1|exact S2].
    + rewrite total_app in *. cbn [total fold_right accesses] in *. lia.
  - assert (LK : exists kk, nth_error ks (length l) = Some kk).
    { destruct (nth_error ks (length l)) eqn:E; [eauto|]. apply nth_error_None in E. rewrite app_length in L. cbn [length] in L. lia. }
    destruct LK as (kk & LK).
    assert (EP : nth_error (l ++ Write a b k :: l') (length l) = Some (Write a b k)) by (rewrite nth_error_app2, Nat.sub_diag by lia; reflexivity).
    destruct (C _ _ _ LK EP) as (WI & S1 & S2). assert (DA : writes kk a) by (inversion WI; assumption).
    assert (WK : within (reads kk) (writes kk) k) by (inversion WI; assumption).
    assert (FR : forall i k1, i <> length l -> nth_error ks i = Some k1 -> forall x, reads k1 x -> written a b m x = m x).
    { intros i k1 NE E1 x RX. unfold written. destruct (Z.eqb_spec x a) as [-> |]; [|reflexivity].
      destruct (ISO i (length l) k1 kk a NE E1 LK DA RX). }
    split; [cbn [snd]; rewrite app_length in *; cbn [length] in *; exact L|]. unfold invariant; cbn [fst snd]. split; [|split].
    + intros i k1 p E1 E2. rewrite (nth_middle _ l l' (Write a b k)) in E2. destruct (Nat.eqb_spec i (length l)) as [-> |NE].
      * injection E2 as <-. rewrite LK in E1. injection E1 as <-. split; [exact WK|]. split; [exact S1|exact S2].
      * destruct (C i k1 p E1 E2) as (WI1 & S3 & S4). destruct (alone_frame _ _ p WI1 (fun a => OWN k1 a (nth_error_In _ _ E1)) m (written a b m) (FR i k1 NE E1)) as (H1 & _ & H3).
        split; [exact WI1|]. split; [rewrite H1; exact S3|]. intros x RX. rewrite H3 by exact RX. apply S4; exact RX.
    + assert (SAME : forall i p, i <> length l -> nth_error (l ++ Write a b k :: l') i = Some p -> accesses p (written a b m) = accesses p m).
      { intros i p NE E2. destruct (nth_error ks i) as [k1|] eqn:E1.
        - destruct (C i k1 p E1 E2) as (WI1 & _). apply (alone_frame _ _ p WI1 (fun a => OWN k1 a (nth_error_In _ _ E1)) m (written a b m) (FR i k1 NE E1)).
        - apply nth_error_None in E1. rewrite <- L in E1. apply nth_error_None in E1. rewrite E1 in E2. discriminate E2. }
      rewrite total_app in *. cbn [total fold_right accesses] in *. fold (total (written a b m) l') in *. fold (total m l') in *.
      rewrite (total_same m (written a b m) l), (total_same m (written a b m) l'); [lia| |].
      * intros p I. apply In_nth_error in I. destruct I as (i & I). apply (SAME (length l + S i)%nat); [lia|].
        rewrite nth_error_app2 by lia. replace (length l + S i - length l)%nat with (S i) by lia. exact I.
      * intros p I. apply In_nth_error in I. destruct I as (i & I). assert (i < length l)%nat by (apply nth_error_Some; congruence).
        apply (SAME i); [lia|]. rewrite nth_error_app1 by lia. exact I.
    + intros x NX. unfold written. destruct (Z.eqb_spec x a) as [-> |]; [|apply O; exact NX].
      destruct (NX kk (nth_error_In _ _ LK) DA).
Qed.

Lemma invariant_all n s : schedule n (m0, map runs ks) s -> invariant n s.
Proof.
  remember (m0, map runs ks) as s0 eqn:E. induction 1 as [|n s s' s'' H IH ST]; [subst; apply invariant_start|].
  exact (invariant_step _ _ _ (IH E) ST).
Qed.
End Run.

(** *** Calls *)
Record call := {
  k_cfg : cfg; k_char : uc; k_type : ftype; k_options : options;
  k_first : Z; k_length : nat; k_destination : Z;
  k_code : code
}.

Definition in_text (k : call) (a : Z) : Prop := k_first k <= a < k_first k + Z.of_nat (k_length k).
Definition in_destination (k : call) (a : Z) : Prop := k_destination k <= a < k_destination k + object_bytes (k_type k).

(** Code for a call of from_chars: it reads its text and its destination and writes its
    destination only, and alone it does what the library does. *)
Definition implements (k : call) : Prop :=
  within (fun a => in_text k a \/ in_destination k a) (in_destination k) (k_code k) /\
  forall m e, bytes m ->
    from_chars_float_effect (k_cfg k) (k_char k) (k_type k) m (k_first k) (k_length k) (k_destination k) (k_options k) = Ok e ->
    snd (alone (k_code k) m) = (e_ptr e, e_ec e) /\
    forall a, fst (alone (k_code k) m) a = after (k_cfg k) (object_bytes (k_type k)) (k_destination k) (e_stores e) m a.

(** No other thread writes where this one reads or writes.  Texts may be shared. *)
Definition isolated (ks : list call) : Prop :=
  forall i j k k' a, i <> j -> nth_error ks i = Some k -> nth_error ks j = Some k' ->
  in_destination k' a -> ~ in_text k a /\ ~ in_destination k a.


(** C70: any number of calls at the same time, each with code that reads its text and
    writes its destination, where no destination overlaps the text or the destination of
    another call (the texts may be the same).  Under every schedule: the accesses come to
    an end, and then every call has returned; a call that has returned has returned the error code, the pointer and the
    number that it has alone on the memory as it was at the start; nothing else has
    changed. *)
Theorem from_chars_concurrent :
  forall (ks : list call) (m0 : memory),
  bytes m0 -> isolated ks ->
  (forall k, In k ks -> (k_char k = Char_s \/ k_char k = Char_u) /\ Z.of_nat (k_length k) <= 2 ^ 59 /\ implements k) ->
  exists bound, forall n m ps, schedule n (m0, map k_code ks) (m, ps) ->
    (n <= bound)%nat /\
    ((forall s, ~ step (m, ps) s) -> forall p, In p ps -> exists ptr e, p = Return ptr e) /\
    (forall a, (forall k, In k ks -> ~ in_destination k a) -> m a = m0 a) /\
    forall i k ptr e, nth_error ks i = Some k -> nth_error ps i = Some (Return ptr e) ->
    exists r,
      from_chars_float_advanced (k_cfg k) (k_char k) (k_type k) (text (k_char k) m0 (k_first k) (k_length k)) (k_options k) = Ok r /\
      e = r_ec r /\
      (apart (k_first k) (Z.of_nat (k_length k)) (k_destination k) (object_bytes (k_type k)) \/
         (forall v, r_value r = Some v -> ~ nan_value (k_type k) v) ->
       ptr = k_first k + Z.of_nat (k_length k) - Z.of_nat (length (r_ptr r))) /\
      match r_value r with
      | Some v => object_at (big_endian (k_cfg k)) (Z.to_nat (object_bytes (k_type k))) (k_destination k) m = v mod 2 ^ (8 * object_bytes (k_type k))
      | None => forall a, in_destination k a -> m a = m0 a
      end.
Proof.
  intros ks m0 B ISO H. exists (total m0 (map k_code ks)). intros n m ps SC.
  set (th := fun k => {| reads := fun a => in_text k a \/ in_destination k a; writes := in_destination k; runs := k_code k |}).
  assert (EC : map runs (map th ks) = map k_code ks) by (rewrite map_map; reflexivity).
  assert (IMPL : forall k, In k (map th ks) -> within (reads k) (writes k) (runs k)).
  { intros k I. apply in_map_iff in I. destruct I as (k0 & <- & I). apply (H k0 I). }
  assert (OWN : forall k a, In k (map th ks) -> writes k a -> reads k a).
  { intros k a I W. apply in_map_iff in I. destruct I as (k0 & <- & I). right. exact W. }
  assert (ISO' : forall i j k k' a, i <> j -> nth_error (map th ks) i = Some k -> nth_error (map th ks) j = Some k' -> writes k' a -> ~ reads k a).
  { intros i j k k' a N E E' W RD. rewrite nth_error_map in E, E'. destruct (nth_error ks i) as [k0|] eqn:E0; [|discriminate E].
    destruct (nth_error ks j) as [k1|] eqn:E1; [|discriminate E']. injection E as <-. injection E' as <-.
    destruct (ISO i j k0 k1 a N E0 E1 W). destruct RD; contradiction. }
  rewrite <- EC in SC. destruct (invariant_all (map th ks) m0 IMPL OWN ISO' n (m, ps) SC) as (L & C & T & O). cbn [fst snd] in *. rewrite EC in T.
  assert (O' : forall a, (forall k, In k ks -> ~ in_destination k a) -> m a = m0 a).
  { intros a NA. apply O. intros k I. apply in_map_iff in I. destruct I as (k0 & <- & I). apply NA. exact I. }
  assert (C' : forall i k p, nth_error ks i = Some k -> nth_error ps i = Some p -> on_course m0 m (th k) p).
  { intros i k p E E'. apply (C i); [|exact E']. rewrite nth_error_map, E. reflexivity. }
  clear O C. rename O' into O. rename C' into C.
  split; [lia|]. split.
  { intros ST p I. apply in_split in I. destruct I as (l & l' & ->). destruct p as [ptr e|a k|a b k]; [eauto| |].
    - destruct (ST _ (step_read m l a k l')).
    - destruct (ST _ (step_write m l a b k l')). }
  split; [exact O|]. intros i k ptr e E1 E2. pose proof (nth_error_In _ _ E1) as IK.
  destruct (H k IK) as (U & LEN & _ & RUN). destruct (C i k _ E1 E2) as (_ & S1 & S2). unfold th in S1, S2. cbn [alone fst snd runs reads] in S1, S2.
  destruct (from_chars_in_place (k_cfg k) (k_char k) (k_type k) m0 (k_first k) (k_length k) (k_destination k) (k_options k) U B LEN)
    as (r & ef & ER & EE & H1 & H2 & _ & (_ & ST) & _).
  destruct (RUN m0 ef B EE) as (R1 & R2). rewrite R1 in S1. injection S1 as -> ->.
  exists r. split; [exact ER|]. split; [exact H1|]. split; [exact H2|].
  destruct (r_value r) as [v|].
  - rewrite <- ST. unfold object_at. assert (G : forall l, incl l (seq 0 (Z.to_nat (object_bytes (k_type k)))) ->
      fold_right (fun i rest => m (k_destination k + Z.of_nat (if big_endian (k_cfg k) then Z.to_nat (object_bytes (k_type k)) - 1 - i else i)%nat) + 256 * rest) 0 l =
      fold_right (fun i rest => after (k_cfg k) (object_bytes (k_type k)) (k_destination k) (e_stores ef) m0 (k_destination k + Z.of_nat (if big_endian (k_cfg k) then Z.to_nat (object_bytes (k_type k)) - 1 - i else i)%nat) + 256 * rest) 0 l).
    { induction l as [|j l IH]; intros I; [reflexivity|]. cbn [fold_right]. rewrite IH by (intros x X; apply I; right; exact X). f_equal.
      rewrite <- R2. apply S2. right. unfold in_destination.
      assert (J : (j < Z.to_nat (object_bytes (k_type k)))%nat) by (specialize (I j (or_introl eq_refl)); apply in_seq in I; lia).
      destruct (big_endian (k_cfg k)); lia. }
    apply G. apply incl_refl.
  - intros a D. rewrite (S2 a (or_intror D)), R2. apply ST.
Qed.
Print Assumptions from_chars_concurrent.

(** *** One code for the calls *)

Fixpoint read_bytes (a : Z) (n : nat) (k : list Z -> code) : code :=
  match n with
  | O => k []
  | S n => Read a (fun b => read_bytes (a + 1) n (fun l => k (b :: l)))
  end.

Definition write_object (c : cfg) (size d v : Z) (k : code) : code :=
  fold_right (fun i k => Write (d + Z.of_nat i) (store c size d v (fun _ => 0) (d + Z.of_nat i)) k) k (seq 0 (Z.to_nat size)).

(** It copies its text, calls the library on the copy and writes what the library stores. *)
Definition plain_code (c : cfg) (u : uc) (t : ftype) (first : Z) (n : nat) (d : Z) (o : options) : code :=
  read_bytes first n (fun l =>
    match from_chars_float_effect c u t (fun a => nth (Z.to_nat (a - first)) l 0) first n d o with
    | Ok e => fold_right (write_object c (object_bytes t) d) (Return (e_ptr e) (e_ec e)) (e_stores e)
    | UB => Return 0 InvalidArgument
    end).

Lemma alone_read : forall n a k m, alone (read_bytes a n k) m = alone (k (map (fun i => m (a + Z.of_nat i)) (seq 0 n))) m.
Proof.
  induction n as [|n IH]; intros a k m; [reflexivity|]. cbn [read_bytes alone]. rewrite IH. cbn [seq map]. rewrite <- seq_shift, map_map.
  rewrite Z.add_0_r. do 3 f_equal. apply map_ext. intros i. f_equal. lia.
Qed.

Lemma read_within (R W : Z -> Prop) : forall n a k, (forall i, (i < n)%nat -> R (a + Z.of_nat i)) -> (forall l, within R W (k l)) -> within R W (read_bytes a n k).
Proof.
  induction n as [|n IH]; intros a k H K; [apply K|]. cbn [read_bytes]. constructor.
  - specialize (H 0%nat). rewrite Z.add_0_r in H. apply H. lia.
  - intros b. apply IH; [|intros l; apply K]. intros i I. replace (a + 1 + Z.of_nat i) with (a + Z.of_nat (S i)) by lia. apply H. lia.
Qed.

Lemma object_within (R W : Z -> Prop) c size d v k : (forall a, d <= a < d + size -> W a) -> within R W k -> within R W (write_object c size d v k).
Proof.
  intros H K. unfold write_object. assert (G : forall l, incl l (seq 0 (Z.to_nat size)) ->
    within R W (fold_right (fun i k => Write (d + Z.of_nat i) (store c size d v (fun _ => 0) (d + Z.of_nat i)) k) k l)).
  { induction l as [|i l IH]; intros I; cbn [fold_right]; [exact K|]. constructor.
    - apply H. specialize (I i (or_introl eq_refl)). apply in_seq in I. lia.
    - apply IH. intros x X. apply I. right. exact X. }
  apply G. apply incl_refl.
Qed.

Lemma alone_same p m m' : (forall a, m' a = m a) -> snd (alone p m') = snd (alone p m) /\ forall a, fst (alone p m') a = fst (alone p m) a.
Proof.
  revert m m'. induction p as [ptr e|a k IH|a b k IH]; intros m m' E; cbn [alone fst snd].
  - split; [reflexivity|exact E].
  - rewrite E. apply IH. exact E.
  - apply IH. intros x. unfold written. destruct (x =? a); [reflexivity|apply E].
Qed.

Lemma alone_object c size d v k m :
  snd (alone (write_object c size d v k) m) = snd (alone k (store c size d v m)) /\
  forall a, fst (alone (write_object c size d v k) m) a = fst (alone k (store c size d v m)) a.
Proof.
  unfold write_object. set (n := Z.to_nat size).
  assert (G : forall l a m, (a + l = n)%nat -> exists m',
    alone (fold_right (fun i k => Write (d + Z.of_nat i) (store c size d v (fun _ => 0) (d + Z.of_nat i)) k) k (seq a l)) m = alone k m' /\
    forall x, m' x = if (d + Z.of_nat a <=? x) && (x <? d + size) then store c size d v (fun _ => 0) x else m x).
  { induction l as [|l IH]; intros a m1 E.
    - exists m1. split; [reflexivity|]. intros x. destruct (Z.leb_spec (d + Z.of_nat a) x); destruct (Z.ltb_spec x (d + size)); cbn [andb]; try reflexivity. lia.
    - cbn [seq fold_right alone]. destruct (IH (S a) (written (d + Z.of_nat a) (store c size d v (fun _ => 0) (d + Z.of_nat a)) m1)) as (m' & E1 & E2); [lia|].
      exists m'. split; [exact E1|]. intros x. rewrite E2. unfold written. destruct (Z.eqb_spec x (d + Z.of_nat a)) as [-> |N].
      + replace (d + Z.of_nat a <=? d + Z.of_nat a) with true by (symmetry; apply Z.leb_le; lia).
        replace (d + Z.of_nat (S a) <=? d + Z.of_nat a) with false by (symmetry; apply Z.leb_gt; lia).
        replace (d + Z.of_nat a <? d + size) with true by (symmetry; apply Z.ltb_lt; lia). reflexivity.
      + destruct (Z.leb_spec (d + Z.of_nat (S a)) x); destruct (Z.leb_spec (d + Z.of_nat a) x); try reflexivity; lia. }
  destruct (G n 0%nat m) as (m' & -> & E); [lia|]. apply alone_same. intros a. rewrite E. unfold store. rewrite Z.add_0_r.
  destruct ((d <=? a) && (a <? d + size)); reflexivity.
Qed.

Lemma alone_stores c size d k : forall l m,
  snd (alone (fold_right (write_object c size d) k l) m) = snd (alone k (after c size d l m)) /\
  forall a, fst (alone (fold_right (write_object c size d) k l) m) a = fst (alone k (after c size d l m)) a.
Proof.
  induction l as [|v l IH]; intros m; [split; reflexivity|]. cbn [fold_right]. destruct (alone_object c size d v (fold_right (write_object c size d) k l) m) as (H1 & H2).
  destruct (IH (store c size d v m)) as (H3 & H4). rewrite H1, H3. split; [reflexivity|]. intros a. rewrite H2, H4. reflexivity.
Qed.

(** The effect depends on the text alone. *)
Lemma effect_local c u t m m' first n d o : (forall a, first <= a < first + Z.of_nat n -> m' a = m a) ->
  from_chars_float_effect c u t m' first n d o = from_chars_float_effect c u t m first n d o.
Proof.
  intros E. unfold from_chars_float_effect. rewrite (text_same u m m' first n E). cbv zeta.
  set (fmt := adjust_for_feature_macros c (o_format o)).
  destruct (if flag fmt f_skip_white_space then skip_ws (text u m first n) else Ok (text u m first n)) as [p|] eqn:EP; cbn [bind]; [|reflexivity].
  assert (SP : exists pre, text u m first n = pre ++ p).
  { destruct (flag fmt f_skip_white_space); [apply skip_suffix; exact EP|]. injection EP as <-. exists []. reflexivity. }
  destruct SP as (pre & SP).
  assert (LP : (length p <= n)%nat) by (apply (f_equal (@length Z)) in SP; rewrite text_length, app_length in SP; lia).
  destruct p as [|ch p]; [reflexivity|]. set (pp := ch :: p) in *. destruct (parse_number_string c u _ pp o false) as [pns|]; cbn [bind]; [|reflexivity].
  destruct (negb (pn_valid pns)); [|reflexivity]. destruct (flag fmt f_no_infnan); [reflexivity|].
  unfold parse_infnan_effect. set (last := first + Z.of_nat n) in *.
  rewrite (text_same u m m' (last - Z.of_nat (length pp)) (length pp)) by (intros a A; apply E; unfold last in *; lia).
  set (q0 := text u m (last - Z.of_nat (length pp)) (length pp)). destruct (deref q0) as [x|]; cbn [bind]; [|reflexivity]. cbv zeta.
  set (q := if (x =? 45) || _ then tl q0 else q0).
  assert (LQ : (length q <= length pp)%nat).
  { unfold q. assert (L0 : length q0 = length pp) by apply text_length. destruct ((x =? 45) || _); [|lia]. destruct q0; cbn [tl length] in *; lia. }
  clearbody q. destruct (3 <=? remaining q); [|reflexivity]. destruct (strncasecmp3 c u q str_const_nan) as [[|]|]; cbn [bind]; try reflexivity.
  destruct (advance 3 q) as [q3|] eqn:A3; cbn [bind]; [|reflexivity]. pose proof (advance_length _ _ _ A3) as L3.
  match goal with |- context [text u (store c (size_of t) d ?v m') ?a ?k] =>
    rewrite (text_same u (store c (size_of t) d v m) (store c (size_of t) d v m') a k) end; [reflexivity|].
  intros a A. unfold store. destruct ((d <=? a) && (a <? d + size_of t)); [reflexivity|]. apply E. unfold last, remaining in *. lia.
Qed.

(** Such code exists for every call. *)
Theorem plain_code_implements :
  forall (c : cfg) (u : uc) (t : ftype) (o : options) (first : Z) (n : nat) (d : Z),
  implements {| k_cfg := c; k_char := u; k_type := t; k_options := o; k_first := first; k_length := n; k_destination := d;
    k_code := plain_code c u t first n d o |}.
Proof.
  intros c u t o first n d. unfold implements. cbn [k_cfg k_char k_type k_options k_first k_length k_destination k_code]. split.
  - unfold plain_code. apply read_within; [intros i I; left; unfold in_text; cbn [k_first k_length]; lia|].
    intros l. destruct (from_chars_float_effect c u t _ first n d o) as [e|]; [|constructor].
    induction (e_stores e) as [|v vs IH]; cbn [fold_right]; [constructor|]. apply object_within; [|exact IH]. intros a A. exact A.
  - intros m e B E. unfold plain_code. rewrite alone_read.
    rewrite (effect_local c u t m).
    + rewrite E. destruct (alone_stores c (object_bytes t) d (Return (e_ptr e) (e_ec e)) (e_stores e) m) as (H1 & H2).
      cbn [alone fst snd] in H1, H2. split; [exact H1|exact H2].
    + intros a A. assert (I : (Z.to_nat (a - first) < n)%nat) by lia.
      set (f := fun i => m (first + Z.of_nat i)).
      rewrite (nth_indep _ 0 (f 0%nat)) by (rewrite map_length, seq_length; exact I).
      rewrite map_nth, seq_nth by exact I. unfold f. f_equal. lia.
Qed.
Print Assumptions plain_code_implements.

(** Two threads read the same text "1.5", as a double at 16 and as a float at 24. *)
Definition two_calls : list call :=
  map (fun td => {| k_cfg := cfg_x86_64; k_char := Char_s; k_type := fst td; k_options := {| o_format := 5; o_decimal_point := 46; o_base := 10 |};
    k_first := 0; k_length := 3; k_destination := snd td;
    k_code := plain_code cfg_x86_64 Char_s (fst td) 0 3 (snd td) {| o_format := 5; o_decimal_point := 46; o_base := 10 |} |}) [(F64, 16); (F32, 24)].

Example two_calls_meet_the_hypotheses :
  isolated two_calls /\
  (forall k, In k two_calls -> (k_char k = Char_s \/ k_char k = Char_u) /\ Z.of_nat (k_length k) <= 2 ^ 59 /\ implements k).
Proof.
  split.
  - intros i j k k' a N E E'. unfold in_text, in_destination.
    destruct i as [|[|i]]; destruct j as [|[|j]]; try (destruct N; reflexivity); cbn in E, E'; try (destruct i; discriminate E); try (destruct j; discriminate E');
    injection E as <-; injection E' as <-; change (object_bytes F64) with 8 in *; change (object_bytes F32) with 4 in *; cbn [k_first k_length k_destination k_type Z.of_nat fst snd]; try change (object_bytes F64) with 8; try change (object_bytes F32) with 4; lia.
  - intros k I. destruct I as [<-|[<-|[]]]; (split; [left; reflexivity|split; [cbn; lia|apply plain_code_implements]]).
Qed.
