(** Property C12, the yardstick: which operations of the abstract machine are
    undefined, and what the others give, in terms of integers only.  "Defined"
    in the theorems of C12 means that none of the undefined cases below is
    reached. *)
From Verif Require Import Machine.
Open Scope Z_scope.

(** [shl]/[shr] are undefined exactly for shift amounts outside [0,n). *)
Theorem shifts_defined : forall n x k : Z, 0 <= x < 2 ^ n -> 0 <= n ->
  (0 <= k < n -> shl n x k = Ok (x * 2 ^ k mod 2 ^ n) /\ shr n x k = Ok (x / 2 ^ k)) /\
  (~ 0 <= k < n -> shl n x k = UB /\ shr n x k = UB).
Proof.
  intros n x k X N. unfold shl, shr. split; intros K.
  - destruct (Z.leb_spec 0 k); [|lia]. destruct (Z.ltb_spec k n); [|lia]. cbn [andb].
    rewrite Z.shiftl_mul_pow2, Z.shiftr_div_pow2 by lia. split; reflexivity.
  - destruct (Z.leb_spec 0 k); [|split; reflexivity]. destruct (Z.ltb_spec k n); [lia|split; reflexivity].
Qed.
Print Assumptions shifts_defined.

(** Signed arithmetic is undefined exactly on overflow; conversion to a signed
    type is reduction modulo 2^n into its range. *)
Theorem signed_defined : forall n x : Z, 1 <= n ->
  (- 2 ^ (n - 1) <= x < 2 ^ (n - 1) -> chk n x = Ok x /\ to_signed n x = x) /\
  (~ - 2 ^ (n - 1) <= x < 2 ^ (n - 1) -> chk n x = UB) /\
  - 2 ^ (n - 1) <= to_signed n x < 2 ^ (n - 1) /\
  (exists j, to_signed n x = x + j * 2 ^ n).
Proof.
  intros n x N. assert (P : 2 ^ n = 2 * 2 ^ (n - 1)) by (rewrite <- Z.pow_succ_r by lia; f_equal; lia).
  pose proof (Z.pow_pos_nonneg 2 (n - 1) ltac:(lia) ltac:(lia)) as P0.
  assert (TS : - 2 ^ (n - 1) <= to_signed n x < 2 ^ (n - 1) /\ (exists j, to_signed n x = x + j * 2 ^ n)).
  { unfold to_signed. pose proof (Z.mod_pos_bound x (2 ^ n) ltac:(lia)) as B. pose proof (Z.div_mod x (2 ^ n) ltac:(lia)) as D.
    cbv zeta. destruct (Z.ltb_spec (x mod 2 ^ n) (2 ^ (n - 1))).
    - split; [lia|]. exists (- (x / 2 ^ n)). lia.
    - split; [lia|]. exists (- (x / 2 ^ n) - 1). lia. }
  split; [|split; [|exact TS]]; unfold chk.
  - intros H. split.
    + destruct (Z.leb_spec (- 2 ^ (n - 1)) x); [|lia]. destruct (Z.ltb_spec x (2 ^ (n - 1))); [reflexivity|lia].
    + destruct TS as (R & j & E). rewrite E in R. rewrite E.
      assert (j = 0) by nia. subst j. lia.
  - intros H. destruct (Z.leb_spec (- 2 ^ (n - 1)) x); [|reflexivity]. destruct (Z.ltb_spec x (2 ^ (n - 1))); [lia|reflexivity].
Qed.
Print Assumptions signed_defined.

(** Reading an array, and moving and reading a pointer into a text, are
    undefined exactly outside of it; a pointer may be moved to the end but not
    read there. *)
Theorem access_defined : forall (a before after : list Z) (x i : Z) (n : nat),
  (nth_res a i <> UB <-> 0 <= i < Z.of_nat (length a)) /\
  nth_res (before ++ x :: after) (Z.of_nat (length before)) = Ok x /\
  deref (x :: after) = Ok x /\ deref [] = UB /\
  advance (length before) (before ++ after) = Ok after /\ take (length before) (before ++ after) = Ok before /\
  ((n > length a)%nat -> advance n a = UB /\ take n a = UB) /\
  remaining a = Z.of_nat (length a).
Proof.
  intros a before after x i n. split; [|split; [|split; [|split; [|split; [|split; [|split]]]]]]; try reflexivity.
  - unfold nth_res. destruct (Z.ltb_spec i 0); [split; [intros X; destruct (X eq_refl)|lia]|].
    destruct (nth_error a (Z.to_nat i)) eqn:E.
    + split; [intros _|discriminate]. assert (Z.to_nat i < length a)%nat by (apply nth_error_Some; congruence). lia.
    + apply nth_error_None in E. split; [intros X; destruct (X eq_refl)|lia].
  - unfold nth_res. destruct (Z.ltb_spec (Z.of_nat (length before)) 0); [lia|]. rewrite Nat2Z.id.
    rewrite nth_error_app2 by lia. rewrite Nat.sub_diag. reflexivity.
  - unfold advance. destruct (Nat.leb_spec (length before) (length (before ++ after))); [|rewrite app_length in *; lia].
    f_equal. rewrite skipn_app, skipn_all, Nat.sub_diag. reflexivity.
  - unfold take. destruct (Nat.leb_spec (length before) (length (before ++ after))); [|rewrite app_length in *; lia].
    f_equal. rewrite firstn_app, firstn_all, Nat.sub_diag. cbn [firstn]. apply app_nil_r.
  - intros H. unfold advance, take. destruct (Nat.leb_spec n (length a)); [lia|split; reflexivity].
Qed.
Print Assumptions access_defined.

(** Unsigned words wrap around. *)
Theorem unsigned_wrap : forall x : Z,
  (0 <= x < 2 ^ 64 -> u64 x = x) /\ u64 (x + 2 ^ 64) = u64 x /\ (0 <= x < 2 ^ 32 -> u32 x = x) /\ u32 (x + 2 ^ 32) = u32 x /\
  (0 <= x < 2 ^ 16 -> u16 x = x) /\ u16 (x + 2 ^ 16) = u16 x /\ (0 <= x < 2 ^ 8 -> u8 x = x) /\ u8 (x + 2 ^ 8) = u8 x.
Proof.
  intros x. unfold u64, u32, u16, u8.
  repeat split; try (intros H; apply Z.mod_small; exact H); rewrite <- (Z.mul_1_l (2 ^ _)) at 1; apply Z.mod_add; lia.
Qed.
Print Assumptions unsigned_wrap.

(** A shift by the width, an overflowing int and a read at the end. *)
Example machine_example :
  shl 64 1 64 = UB /\ shr 64 1 64 = UB /\ shl 64 3 63 = Ok (2 ^ 63) /\ chk 32 (2 ^ 31) = UB /\ to_signed 32 (2 ^ 31) = - 2 ^ 31 /\
  nth_res [7; 8] 2 = UB /\ nth_res [7; 8] 1 = Ok 8 /\ deref [] = UB /\ u8 300 = 44.
Proof. vm_compute. repeat split. Qed.
