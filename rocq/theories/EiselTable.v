(** Facts about the 128-bit table of powers of five, established once for all
    651 entries by computation in the kernel. *)
From Verif Require Import Machine Config Format FastTable TableCerts DecToBin WordLemmas.

(** Binary exponent of the entry and the exact power of five as a fraction:
    5^q * 2^(te_E q) = te_A q / te_B q, of magnitude [2^127, 2^128). *)
Definition te_pw (q : Z) : Z := Z.shiftr (217706 * q) 16 + 63.
Definition te_E (q : Z) : Z := 190 + q - te_pw q.
Definition te_A (q : Z) : Z := 5 ^ (Z.max q 0) * 2 ^ (Z.max (te_E q) 0).
Definition te_B (q : Z) : Z := 5 ^ (Z.max (- q) 0) * 2 ^ (Z.max (- te_E q) 0).

Definition check_cert (T : Z) (c : Z * Z * Z * Z) : bool :=
  let '(q1, k1, q2, k2) := c in
  (0 <=? q1) && (0 <=? q2) && (0 <=? k1) && (0 <=? k2)
  && (2 ^ 64 <? k1 * 2 ^ 137 - T * q1)
  && (0 <=? T * q2 - k2 * 2 ^ 137)
  && (k1 * q2 - k2 * q1 =? 1)
  && (2 ^ 64 <=? q1 + q2).

Definition check_inv (Th : Z) (c : Z * Z * Z * Z) : bool :=
  let '(i, _, _, _) := c in
  negb (Th mod 1024 =? 0) &&
  (Z.even Th || ((2 ^ 64 <=? i) && (i <? 2 ^ 73) && ((Th * i) mod 2 ^ 73 =? 1))).

Definition check_entry (q Th Tl : Z) (c : Z * Z * Z * Z) : bool :=
  let T := Th * 2 ^ 64 + Tl in
  let A := te_A q in
  let B := te_B q in
  (2 ^ 63 <=? Th) && (Th <? 2 ^ 64) && (0 <=? Tl) && (Tl <? 2 ^ 64) &&
  (if (0 <=? q) && (q <=? 55) then
     (T * B =? A) && ((27 <? q) || (Tl =? 0)) && ((23 <? q) || Z.even Th)
   else if (-27 <=? q) && (q <? 0) then
     ((T - 1) * B <? A) && (A <? T * B) && (1 <=? Tl) && (130 <=? te_E q)
     && ((q <? -24) || check_inv Th c)
   else
     (T * B <=? A) && (A <? (T + 1) * B) && check_cert T c).

Fixpoint check_table (q : Z) (l : list Z) (cs : list (Z * Z * Z * Z)) : bool :=
  match l, cs with
  | [], [] => true
  | Th :: Tl :: l, c :: cs => check_entry q Th Tl c && check_table (q + 1) l cs
  | _, _ => false
  end.

Lemma check_table_ok : check_table (-342) power_of_five_128 table_certs = true.
Proof. vm_cast_no_check (eq_refl true). Qed.

Lemma check_table_len : length table_certs = 651%nat.
Proof. reflexivity. Qed.

Lemma check_table_nth : forall l cs q i c,
  check_table q l cs = true -> nth_error cs i = Some c ->
  exists Th Tl, nth_error l (2 * i) = Some Th /\ nth_error l (2 * i + 1) = Some Tl /\
    check_entry (q + Z.of_nat i) Th Tl c = true.
Proof.
  fix IH 1. intros l cs q i c H N.
  destruct l as [|Th [|Tl l]]; destruct cs as [|c0 cs]; try discriminate H.
  - destruct i; discriminate N.
  - cbn [check_table] in H. apply andb_prop in H. destruct H as [H1 H2].
    destruct i as [|i].
    + injection N as <-. exists Th, Tl. rewrite Z.add_0_r. auto.
    + cbn [nth_error] in N. destruct (IH l cs (q + 1) i c H2 N) as (a & b & Ha & Hb & Hc).
      exists a, b. replace (2 * S i)%nat with (S (S (2 * i))) by lia.
      replace (2 * i + 1)%nat with (S (2 * i)) in Hb by lia.
      replace (S (S (2 * i)) + 1)%nat with (S (S (S (2 * i)))) by lia.
      cbn [nth_error]. replace (q + Z.of_nat (S i)) with (q + 1 + Z.of_nat i) by lia. auto.
Qed.

(** A truncated entry never produces a product whose low 137 bits are within
    2^64 of overflowing. *)
Lemma cert_sound T c w :
  check_cert T c = true -> 0 < w < 2 ^ 64 -> (w * T) mod 2 ^ 137 < 2 ^ 137 - 2 ^ 64.
Proof.
  intros H Hw. destruct c as [[[q1 k1] q2] k2]. unfold check_cert in H.
  rewrite !andb_true_iff, !Z.leb_le, !Z.ltb_lt, !Z.eqb_eq in H.
  destruct H as (((((((Q1 & Q2) & Hk1) & Hk2) & R1) & R2) & D) & S12).
  set (m := 2 ^ 137) in *. assert (Hm : 0 < m) by (unfold m; lia).
  destruct (Z_lt_ge_dec ((w * T) mod m) (m - 2 ^ 64)) as [L|G]; [exact L|exfalso].
  pose proof (Z.div_mod (w * T) m ltac:(lia)) as DM.
  pose proof (Z.mod_pos_bound (w * T) m Hm) as MB.
  set (k := (w * T) / m + 1) in *.
  assert (EPS : 0 < k * m - w * T <= 2 ^ 64) by (unfold k; nia).
  clearbody k. clear DM MB G. clearbody m.
  set (x := k * q2 - k2 * w). set (y := k1 * w - k * q1).
  assert (EW : w = x * q1 + y * q2).
  { unfold x, y. transitivity (w * (k1 * q2 - k2 * q1)); [rewrite D; lia|ring]. }
  assert (EK : k = x * k1 + y * k2).
  { unfold x, y. transitivity (k * (k1 * q2 - k2 * q1)); [rewrite D; lia|ring]. }
  assert (EE : k * m - w * T = x * (k1 * m - T * q1) - y * (T * q2 - k2 * m)).
  { rewrite EK at 1. rewrite EW at 1. ring. }
  clearbody x y. rewrite EE in EPS. clear EE EK.
  set (r1 := k1 * m - T * q1) in *. set (r2 := T * q2 - k2 * m) in *. clearbody r1 r2.
  destruct (Z_le_gt_dec 1 x) as [X|X]; destruct (Z_le_gt_dec 1 y) as [Y|Y]; nia.
Qed.

(** ** The facts used by the proof of the algorithm *)
Record entry_ok (q Th Tl : Z) : Prop := {
  eo_Th : 2 ^ 63 <= Th < 2 ^ 64;
  eo_Tl : 0 <= Tl < 2 ^ 64;
  eo_exact : 0 <= q <= 55 -> (Th * 2 ^ 64 + Tl) * te_B q = te_A q;
  eo_Tl0 : 0 <= q <= 27 -> Tl = 0;
  eo_Theven : 0 <= q <= 23 -> Z.even Th = true;
  eo_up : -27 <= q < 0 ->
     (Th * 2 ^ 64 + Tl - 1) * te_B q < te_A q < (Th * 2 ^ 64 + Tl) * te_B q
     /\ 1 <= Tl /\ 130 <= te_E q;
  eo_inv : -24 <= q < 0 -> Th mod 1024 <> 0 /\
     (Z.even Th = true \/ exists i, 2 ^ 64 <= i < 2 ^ 73 /\ (Th * i) mod 2 ^ 73 = 1);
  eo_trunc : q < -27 \/ 55 < q ->
     (Th * 2 ^ 64 + Tl) * te_B q <= te_A q < (Th * 2 ^ 64 + Tl + 1) * te_B q /\
     forall w, 0 < w < 2 ^ 64 -> (w * (Th * 2 ^ 64 + Tl)) mod 2 ^ 137 < 2 ^ 137 - 2 ^ 64
}.

Lemma check_entry_ok q Th Tl c : check_entry q Th Tl c = true -> entry_ok q Th Tl.
Proof.
  unfold check_entry. intros H.
  apply andb_prop in H; destruct H as [H HB].
  rewrite !andb_true_iff, !Z.leb_le, !Z.ltb_lt in H. destruct H as (((H1 & H2) & H3) & H4).
  destruct (Z.leb_spec 0 q) as [Q0|Q0]; [destruct (Z.leb_spec q 55) as [Q1|Q1]|].
  - cbn [andb] in HB.
    rewrite !andb_true_iff, !orb_true_iff, !Z.ltb_lt, !Z.eqb_eq in HB.
    destruct HB as ((B1 & B2) & B3).
    constructor; try lia; try (intros L; destruct B3 as [B3|B3]; [lia|exact B3]).
  - cbn [andb] in HB.
    destruct (Z.ltb_spec q 0); [lia|]. rewrite andb_false_r in HB.
    rewrite !andb_true_iff, !Z.leb_le, !Z.ltb_lt in HB. destruct HB as ((B1 & B2) & B3).
    constructor; try lia. intros _. split; [lia|].
    intros w Hw. eapply cert_sound; eassumption.
  - cbn [andb] in HB.
    destruct (Z.leb_spec (-27) q) as [Q2|Q2]; destruct (Z.ltb_spec q 0) as [Q3|Q3]; try lia;
    cbn [andb] in HB.
    + rewrite !andb_true_iff, !orb_true_iff, !Z.leb_le, !Z.ltb_lt in HB.
      destruct HB as ((((B1 & B2) & B3) & B4) & B5).
      constructor; try lia.
      intros L. destruct B5 as [X|X]; [lia|].
      unfold check_inv in X. destruct c as [[[i ?] ?] ?].
      rewrite !andb_true_iff, orb_true_iff, negb_true_iff, !andb_true_iff, !Z.eqb_neq, !Z.leb_le, !Z.ltb_lt, !Z.eqb_eq in X.
      destruct X as (X1 & X2). split; [exact X1|].
      destruct X2 as [X2|X2]; [left; exact X2|right]. exists i. tauto.
    + rewrite !andb_true_iff, !Z.leb_le, !Z.ltb_lt in HB. destruct HB as ((B1 & B2) & B3).
      constructor; try lia. intros _. split; [lia|].
      intros w Hw. eapply cert_sound; eassumption.
Qed.

Lemma table_entry q : -342 <= q <= 308 ->
  exists Th Tl, nth_res power_of_five_128 (2 * (q + 342)) = Ok Th /\
    nth_res power_of_five_128 (2 * (q + 342) + 1) = Ok Tl /\ entry_ok q Th Tl.
Proof.
  intros Hq. set (i := Z.to_nat (q + 342)).
  destruct (nth_error table_certs i) as [c|] eqn:N.
  - destruct (check_table_nth _ _ _ _ _ check_table_ok N) as (Th & Tl & H1 & H2 & H3).
    exists Th, Tl.
    replace (-342 + Z.of_nat i) with q in H3 by (unfold i; lia).
    split; [|split; [|eapply check_entry_ok; eassumption]].
    + apply nth_res_Ok; [lia|]. rewrite <- H1. f_equal. unfold i. lia.
    + apply nth_res_Ok; [lia|]. rewrite <- H2. f_equal. unfold i. lia.
  - apply nth_error_None in N. rewrite check_table_len in N. unfold i in N. lia.
Qed.
