(** The threads of the exhaustive tests: every schedule of the workers ends, and
    ends with the right exit status. *)
From Verif Require Import Machine Config Chars Format ParseNumber FromChars RandomText Sweep WordLemmas.
From Coq Require Import Lia.
Open Scope Z_scope.

Section Threads.
Variable P : program.
Variable check : Z -> answer.
Variable n : Z.
Hypothesis N : 1 <= n < 2 ^ 32.

Let good_below (i w : Z) : Prop := forall j, 0 <= j < w -> j < 2 ^ 32 -> j mod n = i -> check j = Good.
Let somewhere (a : answer) : Prop := exists w, 0 <= w < 2 ^ 32 /\ check w = a.

Let thread_inv (s : state) (i : nat) (th : thread) : Prop :=
  match th with
  | AtCondition w => Z.of_nat i <= w < 2 ^ 32 + n /\ w mod n = Z.of_nat i /\ good_below (Z.of_nat i) w
  | InBody w => Z.of_nat i <= w < 2 ^ 32 /\ w mod n = Z.of_nat i /\ good_below (Z.of_nat i) w
  | AboutToStore => somewhere Bad
  | Finished => crashed s = true \/ ok s = false \/ good_below (Z.of_nat i) (2 ^ 32)
  end.

Let inv (s : state) : Prop :=
  length (threads s) = Z.to_nat n /\
  (crashed s = true -> somewhere Crash) /\ (ok s = false -> somewhere Bad) /\
  forall i th, nth_error (threads s) i = Some th -> thread_inv s i th.

Lemma inv_start : inv (start n).
Proof.
  split; [cbn; rewrite map_length, seq_length; reflexivity|]. split; [discriminate|]. split; [discriminate|].
  intros i th E. cbn [start threads] in E. assert (L : (i < Z.to_nat n)%nat).
  { rewrite <- (seq_length (Z.to_nat n) 0), <- (map_length (fun t => AtCondition (Z.of_nat t))). apply nth_error_Some. congruence. }
  rewrite nth_error_map in E. rewrite (nth_error_nth' _ 0%nat) in E by (rewrite seq_length; exact L).
  rewrite seq_nth in E by exact L. cbn [option_map Nat.add] in E. injection E as <-. unfold thread_inv.
  split; [lia|]. split; [apply Z.mod_small; lia|]. intros j J _ E. rewrite Z.mod_small in E by lia. lia.
Qed.

Lemma below_all i w : w > 0xFFFFFFFF -> good_below i w -> good_below i (2 ^ 32).
Proof. intros W G j J L E. apply G; [lia|exact L|exact E]. Qed.

Lemma below_next i w : 0 <= w < 2 ^ 32 -> w mod n = i -> good_below i w -> check w = Good -> good_below i (w + n).
Proof.
  intros W M G C j J L E. destruct (Z.lt_trichotomy j w) as [A|[->|A]]; [apply G; lia|exact C|].
  exfalso. assert (D : (j - w) mod n = 0).
  { rewrite Zminus_mod, E, M, Z.sub_diag. reflexivity. }
  rewrite Z.mod_small in D by lia. lia.
Qed.

Lemma thread_inv_flags s s' i th : (crashed s = true -> crashed s' = true) -> (ok s = false -> ok s' = false) ->
  thread_inv s i th -> thread_inv s' i th.
Proof. intros C O. destruct th; unfold thread_inv; try tauto. Qed.

Lemma nth_error_replace {A} (before : list A) x y after i z :
  nth_error (before ++ y :: after) i = Some z ->
  (i = length before /\ z = y) \/ (i <> length before /\ nth_error (before ++ x :: after) i = Some z).
Proof.
  intros E. destruct (Nat.eq_dec i (length before)) as [->|NE].
  - left. rewrite nth_error_app2, Nat.sub_diag in E by lia. cbn in E. injection E as <-. split; reflexivity.
  - right. split; [exact NE|]. destruct (Nat.lt_ge_cases i (length before)) as [L|L].
    + rewrite nth_error_app1 in * by exact L. exact E.
    + rewrite nth_error_app2 in * by exact L. destruct (i - length before)%nat as [|k] eqn:K; [lia|exact E].
Qed.

Lemma u32_word w : 0 <= w < 2 ^ 32 -> u32 w = w.
Proof. intros W. unfold u32. apply Z.mod_small. exact W. Qed.

Lemma inv_step s s' : inv s -> step P check n s s' -> inv s'.
Proof.
  intros (LEN & CR & OK & TH) ST. destruct ST as [o before th th' after o' crash W].
  assert (IH : thread_inv {| crashed := false; ok := o; threads := before ++ th :: after |} (length before) th).
  { apply TH. cbn. rewrite nth_error_app2, Nat.sub_diag by lia. reflexivity. }
  cbn [crashed ok threads] in *.
  assert (MAIN : (crash = true -> somewhere Crash) /\ (o' = false -> somewhere Bad) /\ (o = false -> o' = false) /\
    thread_inv {| crashed := crash; ok := o'; threads := before ++ th' :: after |} (length before) th').
  { unfold thread_inv in *. destruct W; cbn [crashed ok] in *.
    - destruct IH as (_ & _ & G). split; [discriminate|]. split; [exact OK|]. split; [auto|]. right. right. apply (below_all _ w); [lia|exact G].
    - split; [discriminate|]. split; [exact OK|]. split; [auto|]. right. left. assumption.
    - destruct IH as (R & M & G). split; [discriminate|]. split; [exact OK|]. split; [auto|]. split; [lia|]. split; assumption.
    - destruct IH as (R & M & G). split; [discriminate|]. split; [exact OK|]. split; [auto|].
      rewrite u32_word in H by lia. rewrite u64_small by lia. split; [lia|]. split.
      + rewrite <- M. rewrite <- Zplus_mod_idemp_r, Z.mod_same, Z.add_0_r by lia. reflexivity.
      + apply below_next; [lia|exact M|exact G|exact H].
    - destruct IH as (R & M & G). rewrite u32_word in H by lia. split; [discriminate|]. split; [exact OK|]. split; [auto|].
      exists w. split; [lia|exact H].
    - destruct IH as (R & M & G). rewrite u32_word in H by lia. split; [intros _; exists w; split; [lia|exact H]|].
      split; [exact OK|]. split; [auto|]. left. reflexivity.
    - split; [discriminate|]. split; [intros _; exact IH|]. split; [auto|]. right. left. reflexivity. }
  destruct MAIN as (M1 & M2 & M3 & M4).
  split; [cbn; rewrite app_length in *; cbn [length] in *; exact LEN|]. split; [exact M1|]. split; [exact M2|].
  cbn [threads]. intros i x E. destruct (nth_error_replace before th th' after i x E) as [(-> & ->)|(NE & E')]; [exact M4|].
  specialize (TH i x E'). revert TH. apply thread_inv_flags; [discriminate|exact M3].
Qed.

Lemma inv_steps k s s' : inv s -> steps P check n k s s' -> inv s'.
Proof. intros I ST. induction ST as [s|k s s1 s2 S1 S2 IH]; [exact I|]. apply IH. exact (inv_step s s1 I S1). Qed.

(** *** The end *)
Let weight (th : thread) : Z :=
  match th with
  | AtCondition w => 2 * Z.max 0 (2 ^ 32 - w) + 1
  | InBody w => 2 * Z.max 0 (2 ^ 32 - w)
  | AboutToStore => 1
  | Finished => 0
  end.
Let total (l : list thread) : Z := fold_right (fun th acc => weight th + acc) 0 l.

Lemma total_app a b : total (a ++ b) = total a + total b.
Proof. induction a as [|x a IH]; [reflexivity|]. unfold total in *. cbn [app fold_right]. rewrite IH. lia. Qed.

Lemma weight_nonneg th : 0 <= weight th.
Proof. unfold weight. destruct th; lia. Qed.
Lemma total_nonneg l : 0 <= total l.
Proof. induction l as [|x l IH]; [reflexivity|]. unfold total in *. cbn [fold_right]. pose proof (weight_nonneg x). lia. Qed.

Lemma step_weight s s' : inv s -> step P check n s s' -> total (threads s') < total (threads s).
Proof.
  intros (_ & _ & _ & TH) ST. destruct ST as [o before th th' after o' crash W]. cbn [threads] in *.
  specialize (TH (length before) th). rewrite nth_error_app2, Nat.sub_diag in TH by lia. specialize (TH eq_refl).
  rewrite !total_app. unfold total. cbn [fold_right]. cut (weight th' < weight th); [lia|].
  unfold thread_inv in TH. unfold weight. destruct W; try lia.
  rewrite u64_small by lia. lia.
Qed.

Lemma steps_weight k s s' : inv s -> steps P check n k s s' -> Z.of_nat k + total (threads s') <= total (threads s).
Proof.
  intros I ST. induction ST as [s|k s s1 s2 S1 S2 IH]; [lia|]. pose proof (step_weight s s1 I S1).
  specialize (IH (inv_step s s1 I S1)). lia.
Qed.

Lemma start_weight : total (threads (start n)) <= n * (2 ^ 33 + 1).
Proof.
  assert (H : forall m a, (forall t, (a <= t)%nat -> weight (AtCondition (Z.of_nat t)) <= 2 ^ 33 + 1) ->
    total (map (fun t => AtCondition (Z.of_nat t)) (seq a m)) <= Z.of_nat m * (2 ^ 33 + 1)).
  { induction m as [|m IH]; intros a A; [reflexivity|]. unfold total in *. cbn [seq map fold_right].
    pose proof (A a ltac:(lia)). specialize (IH (S a) ltac:(intros t L; apply A; lia)). unfold total in IH. lia. }
  cbn [start threads]. specialize (H (Z.to_nat n) 0%nat). rewrite Z2Nat.id in H by lia. apply H.
  intros t _. unfold weight. lia.
Qed.

Lemma can_step s : inv s -> exit_status P s = None -> exists s', step P check n s s'.
Proof.
  intros (_ & _ & _ & TH) E. unfold exit_status in E. destruct (crashed s) eqn:C; [discriminate|].
  destruct (forallb finished (threads s)) eqn:F; [discriminate|].
  assert (X : exists before th after, threads s = before ++ th :: after /\ finished th = false).
  { clear - F. induction (threads s) as [|x l IH]; [discriminate|]. cbn in F. destruct (finished x) eqn:FX.
    - destruct (IH F) as (b & th & a & -> & H). exists (x :: b), th, a. split; [reflexivity|exact H].
    - exists [], x, l. split; [reflexivity|exact FX]. }
  destruct X as (before & th & after & EL & NF).
  assert (SE : s = {| crashed := false; ok := ok s; threads := before ++ th :: after |}) by (clear TH; destruct s as [s1 s2 s3]; cbn [crashed ok threads] in *; congruence).
  assert (W : exists th' o' crash, worker P check n (ok s) th th' o' crash).
  { destruct th as [w|w| |]; [| | |discriminate].
    - destruct (Z.le_gt_cases w 0xFFFFFFFF); eexists; eexists; eexists; [apply loop_enter|apply loop_end]; assumption.
    - destruct (check (u32 w)) eqn:CW; eexists; eexists; eexists; [apply body_good|apply body_bad|apply body_crash]; exact CW.
    - eexists; eexists; eexists; apply store. }
  destruct W as (th' & o' & crash & W). eexists. rewrite SE. constructor. exact W.
Qed.

Lemma exit_exact s b : inv s -> (reports P = true \/ forall w, check w <> Bad) -> exit_status P s = Some b ->
  (b = true <-> forall w, 0 <= w < 2 ^ 32 -> check w = Good).
Proof.
  intros (LEN & CR & OK & TH) REP E. unfold exit_status in E. destruct (crashed s) eqn:C.
  { injection E as <-. split; [discriminate|]. intros A. destruct (CR eq_refl) as (w & W & X). rewrite A in X by exact W. discriminate. }
  destruct (forallb finished (threads s)) eqn:F; [|discriminate]. injection E as <-.
  assert (REST : ok s = true -> forall w, 0 <= w < 2 ^ 32 -> check w = Good).
  { intros O w W. set (i := Z.to_nat (w mod n)). assert (M : 0 <= w mod n < n) by (apply Z.mod_pos_bound; lia).
    destruct (nth_error (threads s) i) as [th|] eqn:X.
    - assert (FT : finished th = true) by (rewrite forallb_forall in F; apply F; exact (nth_error_In _ _ X)).
      specialize (TH i th X). destruct th; try discriminate FT. unfold thread_inv in TH.
      destruct TH as [A|[A|A]]; [congruence|congruence|]. apply A; [lia|lia|]. unfold i. lia.
    - apply nth_error_None in X. unfold i in X. lia. }
  destruct (ok s) eqn:O.
  - destruct (reports P); (split; [intros _; apply REST; reflexivity|reflexivity]).
  - destruct (OK eq_refl) as (w & W & X). destruct REP as [R|R]; [|destruct (R w X)]. rewrite R. split; [discriminate|].
    intros A. rewrite A in X by exact W. discriminate.
Qed.

(** Every state can be run to an end. *)
Lemma complete_run : exists k s b, steps P check n k (start n) s /\ exit_status P s = Some b.
Proof.
  assert (H : forall m s, inv s -> total (threads s) <= Z.of_nat m ->
    exists k s' b, steps P check n k s s' /\ exit_status P s' = Some b).
  { induction m as [|m IH]; intros s I T; (destruct (exit_status P s) as [b|] eqn:E; [exists 0%nat, s, b; split; [constructor|exact E]|]);
      destruct (can_step s I E) as (s1 & S1); pose proof (step_weight s s1 I S1) as L; pose proof (total_nonneg (threads s1)); [lia|].
    destruct (IH s1 (inv_step s s1 I S1) ltac:(lia)) as (k & s' & b & K & X). exists (S k), s', b. split; [econstructor; eassumption|exact X]. }
  apply (H (Z.to_nat (total (threads (start n)))) (start n) inv_start). pose proof (total_nonneg (threads (start n))). lia.
Qed.

(** The workers' results do not matter to a program that does not look at them. *)
Lemma exit_blind s b : inv s -> reports P = false -> (forall w, 0 <= w < 2 ^ 32 -> check w <> Crash) ->
  exit_status P s = Some b -> b = true.
Proof.
  intros (_ & CR & _) R NC E. unfold exit_status in E. destruct (crashed s) eqn:C.
  { destruct (CR eq_refl) as (w & W & X). destruct (NC w W X). }
  destruct (forallb finished (threads s)); [|discriminate]. rewrite R in E. congruence.
Qed.

Lemma reach_inv k s : steps P check n k (start n) s -> inv s.
Proof. intros ST. exact (inv_steps k _ s inv_start ST). Qed.

Theorem threads_bound k s : steps P check n k (start n) s ->
  Z.of_nat k <= n * (2 ^ 33 + 1) /\ (exit_status P s = None -> exists s', step P check n s s').
Proof.
  intros ST. split; [|exact (can_step s (reach_inv k s ST))].
  pose proof (steps_weight k _ s inv_start ST). pose proof start_weight. pose proof (total_nonneg (threads s)). lia.
Qed.

Theorem threads_exact k s b : steps P check n k (start n) s -> (reports P = true \/ forall w, check w <> Bad) ->
  exit_status P s = Some b -> (b = true <-> forall w, 0 <= w < 2 ^ 32 -> check w = Good).
Proof. intros ST. exact (exit_exact s b (reach_inv k s ST)). Qed.

Theorem threads_blind k s b : steps P check n k (start n) s -> reports P = false ->
  (forall w, 0 <= w < 2 ^ 32 -> check w <> Crash) -> exit_status P s = Some b -> b = true.
Proof. intros ST. exact (exit_blind s b (reach_inv k s ST)). Qed.
End Threads.
