(** C60: the running time is linear in the length of the text, whatever the text.
    [from_chars_float_advanced_n] and [from_chars_int_advanced_n] (Cost.v) are the
    parsers with a count of the rounds of all their loops. *)
From Verif Require Import Machine Config Chars Format FromChars Ints Cost CostErase CostBound CostBound2
  SpecApi SpecIntApi Props_Pow10 Props_Float Props_Ints.
Open Scope Z_scope.

(** The counting parsers are the parsers: without the count they return the
    same result on every input (and are undefined on the same inputs). *)
Theorem counting_changes_nothing :
  forall (c : cfg) (u : uc) (t : ftype) (T : ity) (s : list Z) (o : options),
  erase (from_chars_float_advanced_n c u t s o) = from_chars_float_advanced c u t s o /\
  erase (from_chars_int_advanced_n c u T s o) = from_chars_int_advanced c u T s o.
Proof. intros. split; [apply erase_from_chars_float_advanced|apply erase_from_chars_int_advanced]. Qed.

Lemma erase_outcome {A} (m : run A) x : erase m = Ok x -> exists k, outcome m = Ok (x, k).
Proof.
  unfold erase. destruct (outcome m) as [[y k]|]; [|discriminate]. intros E. injection E as <-. eauto.
Qed.

(** Reading a floating-point number from a text of n characters takes at most
    6 n + 77219 rounds (6 n + 20346 with 64-bit limbs): the constant does not
    depend on the text, its digits or its exponent. *)
Theorem from_chars_linear_time :
  forall (c : cfg) (u : uc) (t : ftype) (o : options) (s : list Z),
  Forall (code_unit u) s ->
  (u = Wchar_s32 -> Forall (fun ch => - 2 ^ 31 + 48 <= ch) s) ->
  Z.of_nat (length s) <= 2 ^ 59 ->
  exists r rounds,
    outcome (from_chars_float_advanced_n c u t s o) = Ok (r, rounds) /\
    from_chars_float_advanced c u t s o = Ok r /\
    0 <= rounds <= 6 * Z.of_nat (length s) + 77219 /\
    (is_32bit c = false -> sparc c = false -> rounds <= 6 * Z.of_nat (length s) + 20346).
Proof.
  intros c u t o s CU WC LEN. destruct (from_chars_defined c u t o s CU WC LEN) as (r & E & _).
  pose proof (erase_from_chars_float_advanced c u t s o) as EE. rewrite E in EE.
  destruct (erase_outcome _ _ EE) as (k & EK). exists r, k. split; [exact EK|]. split; [exact E|].
  pose proof (from_chars_float_takes c u t s o r k EK) as B. cbv beta in B.
  pose proof (rounds_32 c). change (remaining s) with (Z.of_nat (length s)) in B. split; [lia|].
  intros H1 H2. assert (L : limb64 c = true) by (unfold limb64; rewrite H1, H2; reflexivity).
  pose proof (rounds_64 c L). lia.
Qed.

(** Reading an integer takes at most one round per character. *)
Theorem from_chars_int_linear_time :
  forall (c : cfg) (u : uc) (T : ity) (o : options) (s : list Z),
  int_type T -> Forall (code_unit u) s ->
  exists r rounds,
    outcome (from_chars_int_advanced_n c u T s o) = Ok (r, rounds) /\
    from_chars_int_advanced c u T s o = Ok r /\
    0 <= rounds <= Z.of_nat (length s).
Proof.
  intros c u T o s IT CU. destruct (from_chars_int_defined c u T o s IT CU) as (r & E & _).
  pose proof (erase_from_chars_int_advanced c u T s o) as EE. rewrite E in EE.
  destruct (erase_outcome _ _ EE) as (k & EK). exists r, k. split; [exact EK|]. split; [exact E|].
  pose proof (from_chars_int_takes c u T s o r k EK) as B. cbv beta in B.
  change (remaining s) with (Z.of_nat (length s)) in B. lia.
Qed.

(** The bound is attained: n zeros take n rounds. *)
Lemma zeros_rounds : forall n, outcome (int_skip_zeros_n (repeat 48 n)) = Ok ([], Z.of_nat n).
Proof.
  induction n as [|n IH]; [reflexivity|]. cbn [repeat int_skip_zeros_n]. change (48 =? 48) with true.
  unfold tick. cbn [outcome]. rewrite IH. do 2 f_equal. lia.
Qed.
Theorem zeros_take_their_length : forall n : nat, (1 <= n)%nat ->
  exists r, outcome (from_chars_int_advanced_n cfg_x86_64 Char_s int32_type (repeat 48 n) general) = Ok (r, Z.of_nat n).
Proof.
  intros n HN. unfold from_chars_int_advanced_n. change (flag _ f_skip_white_space) with false.
  destruct n as [|n]; [lia|]. cbn [repeat].
  change (48 :: repeat 48 n) with (repeat 48 (S n)).
  unfold seq at 1. cbn [outcome lift].
  destruct (repeat 48 (S n)) as [|z l] eqn:ER; [discriminate|]. rewrite <- ER.
  change ((o_base general <? 2) || (36 <? o_base general)) with false.
  unfold parse_int_string_n. rewrite ER. unfold seq at 1. cbn [deref outcome lift].
  assert (z = 48) by (cbn in ER; congruence). subst z.
  change (48 =? 45) with false. change (48 =? 43) with false. rewrite andb_false_r, andb_false_r. cbn [orb].
  unfold seq at 1. rewrite <- ER, zeros_rounds.
  eexists. cbn -[remaining Z.add Z.of_nat]. rewrite Z.add_0_r. reflexivity.
Qed.

(** A text that needs the arithmetic with large numbers (half-way between two
    doubles but for its last digit): its rounds are counted, and stay far below
    the bound of 20646. *)
Definition text_halfway : list Z :=
  [57;48;48;55;49;57;57;50;53;52;55;52;48;57;57;51;46] ++ repeat 48 32 ++ [49].
Example halfway_rounds :
  outcome (from_chars_float_advanced_n cfg_x86_64 Char_s F64 text_halfway general) =
    Ok ({| r_ptr := []; r_ec := Success; r_value := Some 4845873199050653697 |}, 88) /\
  Forall (code_unit Char_s) text_halfway /\ Z.of_nat (length text_halfway) = 50.
Proof.
  split; [vm_compute; reflexivity|]. split; [|reflexivity].
  unfold text_halfway. cbn [app repeat]. repeat (apply Forall_cons; [unfold code_unit; cbn; lia|]). apply Forall_nil.
Qed.
