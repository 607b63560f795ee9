(** The big-integer operations compute what their names say, as long as the
    result fits the fixed capacity. *)
From Verif Require Import Machine Config Tables Chars Bigint WordLemmas.
Open Scope Z_scope.

Definition lb (c : cfg) : Z := limb_bits c.
Definition cap (c : cfg) : Z := bigint_limbs c.
Definition bv (c : cfg) (v : list Z) : Z := le_word (lb c) v.
Definition limbs (c : cfg) (v : list Z) : Prop := Forall (fun x => 0 <= x < 2 ^ lb c) v.
Definition norm (c : cfg) (v : list Z) : Prop := v = [] \/ 2 ^ (lb c * (vlen v - 1)) <= bv c v.
(** What fits. *)
Definition top (c : cfg) : Z := 2 ^ (lb c * cap c).

Lemma lb_cases c : (limb64 c = true /\ lb c = 64 /\ cap c = 62) \/ (limb64 c = false /\ lb c = 32 /\ cap c = 125).
Proof. unfold lb, cap, bigint_limbs, limb_bits. destruct (limb64 c); [left|right]; repeat split. Qed.

Lemma lb_pos c : 32 <= lb c <= 64.
Proof. destruct (lb_cases c) as [(_ & -> & _)|(_ & -> & _)]; lia. Qed.

Lemma LB_pos c : 0 < 2 ^ lb c.
Proof. apply Z.pow_pos_nonneg; [lia|]. pose proof (lb_pos c). lia. Qed.

Lemma vlen_nonneg v : 0 <= vlen v. Proof. unfold vlen. lia. Qed.
Lemma vlen_app a b : vlen (a ++ b) = vlen a + vlen b.
Proof. unfold vlen. rewrite app_length. lia. Qed.
Lemma vlen_cons x a : vlen (x :: a) = vlen a + 1.
Proof. unfold vlen. cbn [length]. lia. Qed.

Lemma bv_nil c : bv c [] = 0. Proof. reflexivity. Qed.
Lemma bv_cons c x v : bv c (x :: v) = x + 2 ^ lb c * bv c v. Proof. reflexivity. Qed.

Lemma pow_lb c n : 0 <= n -> 2 ^ (lb c * (n + 1)) = 2 ^ lb c * 2 ^ (lb c * n).
Proof.
  intros H. pose proof (lb_pos c). rewrite <- Z.pow_add_r by nia. f_equal. lia.
Qed.

Lemma pow_lb_pos c n : 0 <= n -> 0 < 2 ^ (lb c * n).
Proof. intros H. pose proof (lb_pos c). apply Z.pow_pos_nonneg; nia. Qed.

Lemma bv_app c a b : bv c (a ++ b) = bv c a + 2 ^ (lb c * vlen a) * bv c b.
Proof.
  induction a as [|x a IH].
  - cbn [app]. rewrite bv_nil. unfold vlen. cbn [length]. rewrite Z.mul_0_r. lia.
  - cbn [app]. rewrite !bv_cons, IH, vlen_cons, pow_lb by apply vlen_nonneg. ring.
Qed.

Lemma bv_range c v : limbs c v -> 0 <= bv c v < 2 ^ (lb c * vlen v).
Proof.
  induction 1 as [|x v Hx Hv IH].
  - rewrite bv_nil. unfold vlen. cbn [length]. rewrite Z.mul_0_r. lia.
  - rewrite bv_cons, vlen_cons, pow_lb by apply vlen_nonneg. pose proof (LB_pos c). nia.
Qed.

Lemma limbs_app c a b : limbs c (a ++ b) <-> limbs c a /\ limbs c b.
Proof. apply Forall_app. Qed.

Lemma norm_len c v n : norm c v -> bv c v < 2 ^ (lb c * n) -> 0 <= n -> vlen v <= n.
Proof.
  intros [->|N] H Hn; [unfold vlen; cbn; lia|].
  destruct (Z_le_gt_dec (vlen v) n) as [L|G]; [exact L|exfalso].
  pose proof (lb_pos c).
  assert (2 ^ (lb c * n) <= 2 ^ (lb c * (vlen v - 1))) by (apply Z.pow_le_mono_r; nia). lia.
Qed.

Lemma norm_snoc c v x : limbs c v -> 0 < x -> norm c (v ++ [x]).
Proof.
  intros L H. right. rewrite vlen_app, bv_app, bv_cons, bv_nil. unfold vlen at 2. cbn [length].
  pose proof (bv_range c v L). pose proof (pow_lb_pos c (vlen v) (vlen_nonneg v)).
  replace (vlen v + Z.of_nat 1 - 1) with (vlen v) by lia. nia.
Qed.

Lemma norm_last c v x : limbs c (v ++ [x]) -> norm c (v ++ [x]) -> 0 < x.
Proof.
  intros L [N|N]; [destruct v; discriminate|].
  apply limbs_app in L. destruct L as [L1 L2]. inversion L2; subst.
  rewrite vlen_app, bv_app, bv_cons, bv_nil in N. unfold vlen at 2 in N. cbn [length] in N.
  replace (vlen v + Z.of_nat 1 - 1) with (vlen v) in N by lia.
  pose proof (bv_range c v L1). pose proof (pow_lb_pos c (vlen v) (vlen_nonneg v)). nia.
Qed.

Lemma norm_value c v v' : norm c v -> vlen v' = vlen v -> bv c v <= bv c v' -> norm c v'.
Proof.
  intros [->|N] L H; [left; destruct v'; [reflexivity|unfold vlen in L; cbn in L; lia]|]. right. rewrite L. lia.
Qed.

(** A push that is needed for a value that fits succeeds. *)
Lemma try_push_ok c v x : limbs c v -> 0 < x -> bv c v + 2 ^ (lb c * vlen v) * x < top c ->
  try_push c v x = (true, v ++ [x]).
Proof.
  intros L Hx H. unfold try_push. fold (cap c). destruct (Z.ltb_spec (vlen v) (cap c)) as [A|A]; [reflexivity|exfalso].
  unfold top in H. pose proof (bv_range c v L). pose proof (lb_pos c).
  assert (2 ^ (lb c * cap c) <= 2 ^ (lb c * vlen v)) by (apply Z.pow_le_mono_r; nia). nia.
Qed.

(** ** Scalars *)

Lemma scalar_add_spec c x y : 0 <= x < 2 ^ lb c -> 0 <= y < 2 ^ lb c ->
  exists s (ov : bool), scalar_add c x y = (s, ov) /\ 0 <= s < 2 ^ lb c /\
    s + 2 ^ lb c * (if ov then 1 else 0) = x + y.
Proof.
  intros Hx Hy. unfold scalar_add, wlimb. fold (lb c). pose proof (LB_pos c) as P. set (B := 2 ^ lb c) in *.
  assert (M : (x + y) mod B = if Z_lt_ge_dec (x + y) B then x + y else x + y - B).
  { destruct (Z_lt_ge_dec (x + y) B); [apply Z.mod_small; lia|].
    rewrite <- (Z.mod_add (x + y) (-1)) by lia. rewrite Z.mod_small by lia. lia. }
  rewrite M. destruct (Z_lt_ge_dec (x + y) B) as [L|G].
  - destruct (add_overflow_builtin c && negb (in_constexpr c)).
    + exists (x + y), false. split; [f_equal; apply Z.leb_gt; lia|lia].
    + exists (x + y), false. split; [f_equal; apply Z.ltb_ge; lia|lia].
  - destruct (add_overflow_builtin c && negb (in_constexpr c)).
    + exists (x + y - B), true. split; [f_equal; apply Z.leb_le; lia|lia].
    + exists (x + y - B), true. split; [f_equal; apply Z.ltb_lt; lia|lia].
Qed.

Lemma scalar_mul_spec c x y k : 0 <= x < 2 ^ lb c -> 0 <= y < 2 ^ lb c -> 0 <= k < 2 ^ lb c ->
  exists lo hi, scalar_mul c x y k = (lo, hi) /\ 0 <= lo < 2 ^ lb c /\ 0 <= hi < 2 ^ lb c /\
    lo + 2 ^ lb c * hi = x * y + k.
Proof.
  intros Hx Hy Hk. unfold scalar_mul.
  destruct (lb_cases c) as [(E & EL & _)|(E & EL & _)]; rewrite E, EL in *.
  - assert (Z : x * y + k < 2 ^ 64 * 2 ^ 64) by nia.
    destruct (int128 c).
    + rewrite (Z.mod_small (x * y + k)) by lia. eexists _, _. split; [reflexivity|].
      unfold u64. rewrite Z.shiftr_div_pow2 by lia.
      pose proof (Z.div_mod (x * y + k) (2 ^ 64) ltac:(lia)) as D. pose proof (Z.mod_pos_bound (x * y + k) (2 ^ 64) ltac:(lia)) as M.
      assert (Q : 0 <= (x * y + k) / 2 ^ 64 < 2 ^ 64) by (split; [apply Z.div_pos; lia|apply Z.div_lt_upper_bound; lia]).
      rewrite (Z.mod_small ((x * y + k) / 2 ^ 64)) by exact Q. lia.
    + pose proof (full_multiplication_spec c x y Hx Hy) as F.
      rewrite F. clear F. pose proof (Z.mod_pos_bound (x * y) (2 ^ 64) ltac:(lia)) as F1.
      pose proof (Z.div_mod (x * y) (2 ^ 64) ltac:(lia)) as F2.
      assert (F3 : 0 <= x * y / 2 ^ 64) by (apply Z.div_pos; nia).
      set (l := (x * y) mod 2 ^ 64) in *. set (h := x * y / 2 ^ 64) in *.
      destruct (scalar_add_spec c l k) as (s & ov & -> & S1 & S2); [rewrite EL; assumption|rewrite EL; assumption|].
      rewrite EL in *. eexists _, _. split; [reflexivity|].
      assert (hi_ok : h + (if ov then 1 else 0) < 2 ^ 64) by (destruct ov; nia).
      rewrite u64_small by (destruct ov; lia). destruct ov; lia.
  - assert (Z : x * y + k < 2 ^ 32 * 2 ^ 32) by nia.
    rewrite u64_small by lia. eexists _, _. split; [reflexivity|].
    unfold u32. rewrite Z.shiftr_div_pow2 by lia.
    pose proof (Z.div_mod (x * y + k) (2 ^ 32) ltac:(lia)) as D. pose proof (Z.mod_pos_bound (x * y + k) (2 ^ 32) ltac:(lia)) as M.
    assert (Q : 0 <= (x * y + k) / 2 ^ 32 < 2 ^ 32) by (split; [apply Z.div_pos; lia|apply Z.div_lt_upper_bound; lia]).
    rewrite (Z.mod_small ((x * y + k) / 2 ^ 32)) by exact Q. lia.
Qed.

(** ** Adding and multiplying by one limb *)

Lemma add_carry_loop_spec c : forall l k, limbs c l -> 0 <= k < 2 ^ lb c ->
  exists r cr, add_carry_loop c l k = (r, cr) /\ limbs c r /\ vlen r = vlen l /\ 0 <= cr < 2 ^ lb c /\
    bv c r + 2 ^ (lb c * vlen l) * cr = bv c l + k.
Proof.
  induction l as [|x l IH]; intros k L Hk.
  - exists [], k. cbn [add_carry_loop]. rewrite bv_nil. unfold vlen; cbn [length]. rewrite Z.mul_0_r.
    split; [reflexivity|]. repeat split; try constructor; try lia.
  - inversion L as [|? ? Hx Hl]; subst. cbn [add_carry_loop]. destruct (Z.eqb_spec k 0) as [->|N].
    + exists (x :: l), 0. split; [reflexivity|]. split; [exact L|]. split; [reflexivity|]. lia.
    + destruct (scalar_add_spec c x k Hx Hk) as (s & ov & -> & S1 & S2).
      pose proof (LB_pos c). pose proof (lb_pos c).
      destruct (IH (if ov then 1 else 0) Hl) as (r & cr & -> & R1 & R2 & R3 & R4).
      { assert (2 ^ 1 <= 2 ^ lb c) by (apply Z.pow_le_mono_r; lia). destruct ov; lia. }
      exists (s :: r), cr. split; [reflexivity|]. split; [constructor; assumption|].
      rewrite !vlen_cons, R2. split; [reflexivity|]. split; [exact R3|].
      rewrite !bv_cons, pow_lb by apply vlen_nonneg. nia.
Qed.

Lemma bv_firstn_skipn c v n : bv c v = bv c (firstn n v) + 2 ^ (lb c * vlen (firstn n v)) * bv c (skipn n v).
Proof. rewrite <- bv_app, firstn_skipn. reflexivity. Qed.

Lemma limbs_firstn c v n : limbs c v -> limbs c (firstn n v) /\ limbs c (skipn n v).
Proof.
  intros H. rewrite <- (firstn_skipn n v) in H. apply limbs_app in H. exact H.
Qed.

Lemma small_add_from_spec c v y start : limbs c v -> 0 <= y < 2 ^ lb c -> 0 <= start <= vlen v ->
  bv c v + 2 ^ (lb c * start) * y < top c ->
  exists r, small_add_from c v y start = (true, r) /\ limbs c r /\ bv c r = bv c v + 2 ^ (lb c * start) * y /\
    (norm c v -> norm c r) /\ vlen v <= vlen r.
Proof.
  intros L Hy Hs HT. unfold small_add_from.
  destruct (limbs_firstn c v (Z.to_nat start) L) as [L1 L2].
  destruct (add_carry_loop_spec c _ y L2 Hy) as (r & cr & -> & R1 & R2 & R3 & R4).
  pose proof (bv_firstn_skipn c v (Z.to_nat start)) as D.
  assert (LF : vlen (firstn (Z.to_nat start) v) = start) by (unfold vlen in *; rewrite firstn_length; lia).
  assert (LS : vlen v = start + vlen (skipn (Z.to_nat start) v)) by (unfold vlen in *; rewrite skipn_length; lia).
  rewrite LF in D.
  set (f := firstn (Z.to_nat start) v) in *. set (s := skipn (Z.to_nat start) v) in *.
  assert (LV : vlen (f ++ r) = vlen v) by (rewrite vlen_app, LF, R2; lia).
  assert (BV : bv c (f ++ r) + 2 ^ (lb c * vlen (f ++ r)) * cr = bv c v + 2 ^ (lb c * start) * y).
  { rewrite bv_app, LF, D. rewrite vlen_app, LF, R2, Z.mul_add_distr_l, Z.pow_add_r by (pose proof (lb_pos c); pose proof (vlen_nonneg s); nia).
    transitivity (bv c f + 2 ^ (lb c * start) * (bv c r + 2 ^ (lb c * vlen s) * cr)); [ring|]. rewrite R4. ring. }
  assert (LFR : limbs c (f ++ r)) by (apply limbs_app; auto).
  destruct (Z.eqb_spec cr 0) as [->|N]; cbn [negb].
  - exists (f ++ r). split; [reflexivity|]. split; [exact LFR|]. split; [lia|]. split; [|lia].
    intros NV. apply (norm_value c v); [exact NV|exact LV|].
    pose proof (pow_lb_pos c start ltac:(lia)). nia.
  - rewrite try_push_ok; [|exact LFR|lia|lia].
    exists (f ++ r ++ [cr]). rewrite app_assoc. split; [reflexivity|].
    split; [apply limbs_app; split; [exact LFR|constructor; [lia|constructor]]|].
    rewrite bv_app, bv_cons, bv_nil. split; [lia|].
    split; [intros _; apply norm_snoc; [exact LFR|lia]|]. rewrite vlen_app. unfold vlen at 3. cbn [length]. lia.
Qed.

Lemma mul_loop_spec c y : 0 <= y < 2 ^ lb c -> forall l k, limbs c l -> 0 <= k < 2 ^ lb c ->
  exists r cr, mul_loop c l y k = (r, cr) /\ limbs c r /\ vlen r = vlen l /\ 0 <= cr < 2 ^ lb c /\
    bv c r + 2 ^ (lb c * vlen l) * cr = bv c l * y + k.
Proof.
  intros Hy. induction l as [|x l IH]; intros k L Hk.
  - exists [], k. cbn [mul_loop]. rewrite bv_nil. unfold vlen; cbn [length]. rewrite Z.mul_0_r.
    split; [reflexivity|]. repeat split; try constructor; try lia.
  - inversion L as [|? ? Hx Hl]; subst. cbn [mul_loop].
    destruct (scalar_mul_spec c x y k Hx Hy Hk) as (lo & hi & -> & S1 & S2 & S3).
    destruct (IH hi Hl S2) as (r & cr & -> & R1 & R2 & R3 & R4).
    exists (lo :: r), cr. split; [reflexivity|]. split; [constructor; assumption|].
    rewrite !vlen_cons, R2. split; [reflexivity|]. split; [exact R3|].
    rewrite !bv_cons, pow_lb by apply vlen_nonneg. pose proof (LB_pos c). nia.
Qed.

Lemma small_mul_spec c v y : limbs c v -> 0 <= y < 2 ^ lb c -> bv c v * y < top c ->
  exists r, small_mul c v y = (true, r) /\ limbs c r /\ bv c r = bv c v * y /\
    (norm c v -> 0 < y -> norm c r).
Proof.
  intros L Hy HT. unfold small_mul.
  destruct (mul_loop_spec c y Hy v 0 L ltac:(pose proof (LB_pos c); lia)) as (r & cr & -> & R1 & R2 & R3 & R4).
  rewrite Z.add_0_r in R4. rewrite <- R2 in R4.
  destruct (Z.eqb_spec cr 0) as [->|N]; cbn [negb].
  - exists r. split; [reflexivity|]. split; [exact R1|]. split; [lia|].
    intros NV Y. apply (norm_value c v); [exact NV|lia|]. pose proof (bv_range c v L). nia.
  - rewrite try_push_ok; [|exact R1|lia|lia].
    exists (r ++ [cr]). split; [reflexivity|].
    split; [apply limbs_app; split; [exact R1|constructor; [lia|constructor]]|].
    rewrite bv_app, bv_cons, bv_nil. split; [lia|]. intros _ _. apply norm_snoc; [exact R1|lia].
Qed.

(** ** Adding and multiplying vectors *)

Lemma repeat0 c n : limbs c (repeat 0 n) /\ bv c (repeat 0 n) = 0.
Proof.
  induction n as [|n [L B]]; [split; [constructor|reflexivity]|]. cbn [repeat]. split.
  - constructor; [pose proof (LB_pos c); lia|exact L].
  - rewrite bv_cons, B. lia.
Qed.

Lemma add_loop_spec c : forall ys xs k, limbs c xs -> limbs c ys -> vlen ys <= vlen xs ->
  exists r (cr : bool), add_loop c xs ys k = Ok (r, cr) /\ limbs c r /\ vlen r = vlen xs /\
    bv c r + 2 ^ (lb c * vlen ys) * (if cr then 1 else 0) = bv c xs + bv c ys + (if k then 1 else 0).
Proof.
  induction ys as [|y ys IH]; intros xs k LX LY LE.
  - exists xs, k. split; [destruct xs; reflexivity|]. split; [exact LX|]. split; [reflexivity|].
    rewrite bv_nil. unfold vlen; cbn [length]. rewrite Z.mul_0_r. lia.
  - destruct xs as [|x xs]; [unfold vlen in LE; cbn in LE; lia|].
    rewrite !vlen_cons in LE. inversion LX as [|? ? Hx Hxs]; subst. inversion LY as [|? ? Hy Hys]; subst.
    cbn [add_loop].
    destruct (scalar_add_spec c x y Hx Hy) as (s & o1 & -> & S1 & S2).
    pose proof (lb_pos c). pose proof (LB_pos c).
    assert (ONE : 0 <= 1 < 2 ^ lb c) by (assert (2 ^ 1 <= 2 ^ lb c) by (apply Z.pow_le_mono_r; lia); lia).
    assert (X : exists s2 (o2 : bool), (if k then scalar_add c s 1 else (s, false)) = (s2, o2) /\ 0 <= s2 < 2 ^ lb c /\
       s2 + 2 ^ lb c * (if o2 then 1 else 0) = s + (if k then 1 else 0)).
    { destruct k; [apply scalar_add_spec; assumption|]. exists s, false. split; [reflexivity|]. split; [exact S1|]. lia. }
    destruct X as (s2 & o2 & -> & T1 & T2).
    destruct (IH xs (o1 || o2) Hxs Hys ltac:(lia)) as (r & cr & -> & R1 & R2 & R3). cbn [bind].
    exists (s2 :: r), cr. split; [reflexivity|]. split; [constructor; assumption|]. rewrite !vlen_cons, R2.
    split; [reflexivity|]. rewrite !bv_cons, pow_lb by apply vlen_nonneg.
    assert (O : (if o1 || o2 then 1 else 0) = (if o1 then 1 else 0) + (if o2 then 1 else 0)).
    { destruct o1, o2; cbn [orb]; try lia. exfalso. destruct k; lia. }
    rewrite O in R3. nia.
Qed.

Lemma large_add_from_spec c x y start : limbs c x -> limbs c y -> 0 <= start -> norm c y -> y <> [] ->
  bv c x + 2 ^ (lb c * start) * bv c y < top c ->
  exists r, large_add_from c x y start = Ok (true, r) /\ limbs c r /\
    bv c r = bv c x + 2 ^ (lb c * start) * bv c y.
Proof.
  intros LX LY Hs NY YN HT. unfold large_add_from.
  pose proof (lb_pos c) as LP.
  assert (SZ : vlen y + start <= cap c).
  { destruct NY as [NY|NY]; [contradiction|].
    destruct (Z_le_gt_dec (vlen y + start) (cap c)) as [A|A]; [exact A|exfalso].
    pose proof (bv_range c x LX). unfold top in HT.
    assert (1 <= vlen y) by (destruct y; [congruence|rewrite vlen_cons; pose proof (vlen_nonneg y); lia]).
    assert (2 ^ (lb c * cap c) <= 2 ^ (lb c * start) * 2 ^ (lb c * (vlen y - 1))).
    { rewrite <- Z.pow_add_r by nia. apply Z.pow_le_mono_r; nia. }
    pose proof (pow_lb_pos c start Hs). nia. }
  assert (X : exists x', (if (vlen x <? start) || (vlen x - start <? vlen y) then try_resize c x (vlen y + start) 0 else (true, x)) = (true, x') /\
     limbs c x' /\ bv c x' = bv c x /\ vlen y + start <= vlen x').
  { pose proof (vlen_nonneg y). destruct ((vlen x <? start) || (vlen x - start <? vlen y)) eqn:C.
    - unfold try_resize. fold (cap c). destruct (Z.ltb_spec (cap c) (vlen y + start)); [lia|].
      assert (S : vlen x <= vlen y + start) by (apply orb_true_iff in C; destruct C as [C|C]; apply Z.ltb_lt in C; lia).
      unfold vlen in S, H, H0.
      assert (F : firstn (Z.to_nat (vlen y + start)) x = x) by (apply firstn_all2; unfold vlen; lia). rewrite F.
      eexists. split; [reflexivity|]. destruct (repeat0 c (Z.to_nat (vlen y + start) - length x)) as [Q1 Q2].
      split; [apply limbs_app; auto|]. rewrite bv_app, Q2, Z.mul_0_r, Z.add_0_r. split; [reflexivity|].
      rewrite vlen_app. assert (VR : vlen (repeat 0 (Z.to_nat (vlen y + start) - length x)) = Z.of_nat (Z.to_nat (vlen y + start) - length x)) by (unfold vlen at 1; rewrite repeat_length; reflexivity).
      rewrite VR. unfold vlen in *. lia.
    - apply orb_false_iff in C. destruct C as [C1 C2]. apply Z.ltb_ge in C1. apply Z.ltb_ge in C2.
      exists x. repeat split; try assumption; lia. }
  destruct X as (x' & -> & LX' & BX' & VX'). cbn [negb]. rewrite <- BX' in HT |- *. clear LX BX' x.
  pose proof (vlen_nonneg y) as VY.
  destruct (limbs_firstn c x' (Z.to_nat start) LX') as [L1 L2].
  pose proof (bv_firstn_skipn c x' (Z.to_nat start)) as D.
  assert (LF : vlen (firstn (Z.to_nat start) x') = start) by (unfold vlen in *; rewrite firstn_length; lia).
  assert (LS : vlen x' = start + vlen (skipn (Z.to_nat start) x')) by (unfold vlen in *; rewrite skipn_length; lia).
  rewrite LF in D.
  destruct (add_loop_spec c y (skipn (Z.to_nat start) x') false L2 LY ltac:(lia)) as (r & cr & -> & R1 & R2 & R3). cbn [bind].
  rewrite Z.add_0_r in R3.
  set (f := firstn (Z.to_nat start) x') in *. set (s := skipn (Z.to_nat start) x') in *.
  assert (LFR : limbs c (f ++ r)) by (apply limbs_app; auto).
  assert (LV : vlen (f ++ r) = vlen x') by (rewrite vlen_app, LF, R2; lia).
  assert (BV : bv c (f ++ r) + 2 ^ (lb c * (vlen y + start)) * (if cr then 1 else 0) = bv c x' + 2 ^ (lb c * start) * bv c y).
  { rewrite bv_app, LF, D, Z.mul_add_distr_l, Z.pow_add_r by nia.
    transitivity (bv c f + 2 ^ (lb c * start) * (bv c r + 2 ^ (lb c * vlen y) * (if cr then 1 else 0))); [ring|]. rewrite R3. ring. }
  destruct cr.
  - destruct (small_add_from_spec c (f ++ r) 1 (vlen y + start)) as (q & -> & Q1 & Q2 & _).
    + exact LFR.
    + assert (2 ^ 1 <= 2 ^ lb c) by (apply Z.pow_le_mono_r; lia). lia.
    + lia.
    + lia.
    + exists q. split; [reflexivity|]. split; [exact Q1|]. lia.
  - exists (f ++ r). split; [reflexivity|]. split; [exact LFR|]. lia.
Qed.

(** ** Normalisation *)

Lemma normalize_snoc v x : normalize (v ++ [x]) = if x =? 0 then normalize v else v ++ [x].
Proof.
  unfold normalize. rewrite rev_app_distr. cbn [rev app drop_zeros].
  destruct (x =? 0); [reflexivity|]. cbn [rev]. rewrite rev_involutive. reflexivity.
Qed.

Lemma normalize_spec c v : limbs c v ->
  limbs c (normalize v) /\ bv c (normalize v) = bv c v /\ norm c (normalize v).
Proof.
  induction v as [|x v IH] using rev_ind; intros L.
  - split; [constructor|]. split; [reflexivity|left; reflexivity].
  - rewrite normalize_snoc. pose proof L as L0. apply limbs_app in L. destruct L as [L1 L2].
    inversion L2 as [|? ? Hx _]; subst.
    destruct (Z.eqb_spec x 0) as [->|N].
    + destruct (IH L1) as (A & B & C). split; [exact A|]. split; [|exact C].
      rewrite B, bv_app, bv_cons, bv_nil. lia.
    + split; [exact L0|]. split; [reflexivity|]. apply norm_snoc; [exact L1|lia].
Qed.

Lemma norm_nonzero c v : norm c v -> v <> [] -> 0 < bv c v.
Proof.
  intros [->|N] H; [congruence|].
  assert (1 <= vlen v) by (destruct v; [congruence|rewrite vlen_cons; pose proof (vlen_nonneg v); lia]).
  pose proof (pow_lb_pos c (vlen v - 1) ltac:(lia)). lia.
Qed.

Lemma nonzero_nonnil c v : 0 < bv c v -> v <> [].
Proof. intros H ->. rewrite bv_nil in H. lia. Qed.

Lemma cap_pos c : 0 < cap c. Proof. destruct (lb_cases c) as [(_ & _ & ->)|(_ & _ & ->)]; lia. Qed.

Lemma norm_fits c v : norm c v -> bv c v < top c -> vlen v <= cap c.
Proof. intros N H. apply (norm_len c v); [exact N|exact H|]. pose proof (cap_pos c). lia. Qed.

(** ** Multiplication *)

Lemma long_mul_loop_spec c z : limbs c z -> norm c z -> 0 < bv c z -> forall ys x index,
  limbs c ys -> limbs c x -> 0 <= index ->
  bv c x + 2 ^ (lb c * index) * (bv c z * bv c ys) < top c ->
  exists r, long_mul_loop c x z ys index = Ok (true, r) /\ limbs c r /\
    bv c r = bv c x + 2 ^ (lb c * index) * (bv c z * bv c ys).
Proof.
  intros LZ NZ PZ. induction ys as [|y ys IH]; intros x index LY LX HI HT.
  - exists x. rewrite bv_nil. cbn [long_mul_loop]. split; [reflexivity|]. split; [exact LX|]. lia.
  - inversion LY as [|? ? Hy Hys]; subst. cbn [long_mul_loop].
    pose proof (pow_lb_pos c index HI) as PI. pose proof (LB_pos c) as PB.
    pose proof (bv_range c ys Hys) as RY. pose proof (bv_range c x LX) as RX.
    assert (EQ : 2 ^ (lb c * index) * (bv c z * bv c (y :: ys)) =
       2 ^ (lb c * index) * (bv c z * y) + 2 ^ (lb c * (index + 1)) * (bv c z * bv c ys)).
    { rewrite bv_cons, pow_lb by exact HI. ring. }
    rewrite EQ in *. clear EQ.
    assert (P2 : 0 <= 2 ^ (lb c * (index + 1)) * (bv c z * bv c ys)).
    { pose proof (pow_lb_pos c (index + 1) ltac:(lia)). apply Z.mul_nonneg_nonneg; [lia|]. apply Z.mul_nonneg_nonneg; lia. }
    destruct (Z.eqb_spec y 0) as [->|N]; cbn [negb].
    + rewrite Z.mul_0_r, Z.mul_0_r, Z.add_0_l in *. apply IH; try assumption; lia.
    + assert (ZY : bv c z <= bv c z * y) by nia.
      assert (ZT : bv c z * y <= 2 ^ (lb c * index) * (bv c z * y)) by nia.
      unfold try_extend. cbn [app]. fold (cap c).
      destruct (Z.leb_spec (vlen [] + vlen z) (cap c)) as [_|G];
        [|exfalso; pose proof (norm_fits c z NZ ltac:(lia)); unfold vlen at 1 in G; cbn [length] in G; lia].
      cbn [negb].
      destruct (small_mul_spec c z y LZ Hy ltac:(lia)) as (zi & -> & Z1 & Z2 & Z3). cbn [negb].
      specialize (Z3 NZ ltac:(lia)).
      destruct (large_add_from_spec c x zi index LX Z1 HI Z3) as (x2 & -> & X1 & X2).
      * apply (nonzero_nonnil c). lia.
      * rewrite Z2. lia.
      * cbn [bind negb]. rewrite Z2 in X2.
        destruct (IH x2 (index + 1) Hys X1 ltac:(lia) ltac:(rewrite X2; lia)) as (r & -> & R1 & R2).
        exists r. split; [reflexivity|]. split; [exact R1|]. rewrite R2, X2. lia.
Qed.

Lemma long_mul_spec c x y : limbs c x -> norm c x -> 0 < bv c x -> limbs c y -> 0 < bv c y ->
  bv c x * bv c y < top c ->
  exists r, long_mul c x y = Ok (true, r) /\ limbs c r /\ norm c r /\ bv c r = bv c x * bv c y.
Proof.
  intros LX NX PX LY PY HT. unfold long_mul.
  unfold try_extend. cbn [app]. fold (cap c).
  destruct (Z.leb_spec (vlen [] + vlen x) (cap c)) as [_|G];
    [|exfalso; pose proof (norm_fits c x NX ltac:(nia)); unfold vlen at 1 in G; cbn [length] in G; lia].
  rewrite assert_true.
  destruct y as [|y0 ys]; [rewrite bv_nil in PY; lia|].
  inversion LY as [|? ? Hy Hys]; subst. rewrite bv_cons in *.
  pose proof (bv_range c ys Hys) as RY. pose proof (LB_pos c) as PB.
  assert (EQ : bv c x * (y0 + 2 ^ lb c * bv c ys) = bv c x * y0 + 2 ^ (lb c * 1) * (bv c x * bv c ys)) by (rewrite Z.mul_1_r; ring).
  rewrite EQ in *. clear EQ.
  assert (P2 : 0 <= 2 ^ (lb c * 1) * (bv c x * bv c ys)).
  { rewrite Z.mul_1_r. apply Z.mul_nonneg_nonneg; [lia|]. apply Z.mul_nonneg_nonneg; lia. }
  destruct (small_mul_spec c x y0 LX Hy ltac:(lia)) as (x2 & -> & X1 & X2 & _). cbn [negb].
  destruct (long_mul_loop_spec c x LX NX PX ys x2 1 Hys X1 ltac:(lia) ltac:(lia)) as (r & -> & R1 & R2).
  cbn [bind negb]. destruct (normalize_spec c r R1) as (A & B & C).
  exists (normalize r). split; [reflexivity|]. split; [exact A|]. split; [exact C|]. lia.
Qed.

Lemma large_mul_spec c x y : limbs c x -> norm c x -> 0 < bv c x -> limbs c y -> 0 < bv c y ->
  bv c x * bv c y < top c ->
  exists r, large_mul c x y = Ok (true, r) /\ limbs c r /\ norm c r /\ bv c r = bv c x * bv c y.
Proof.
  intros LX NX PX LY PY HT. unfold large_mul.
  destruct y as [|y0 [|y1 ys]]; [rewrite bv_nil in PY; lia| |apply long_mul_spec; assumption].
  rewrite bv_cons, bv_nil, Z.mul_0_r, Z.add_0_r in *. inversion LY as [|? ? Hy _]; subst.
  destruct (small_mul_spec c x y0 LX Hy HT) as (r & -> & R1 & R2 & R3).
  exists r. split; [reflexivity|]. split; [exact R1|]. split; [apply R3; [exact NX|lia]|exact R2].
Qed.

(** ** Powers of five, two and ten *)

Lemma large_power_ok c : limbs c (large_power_of_5 c) /\ bv c (large_power_of_5 c) = 5 ^ 135.
Proof.
  unfold large_power_of_5, limbs, bv. destruct (lb_cases c) as [(-> & -> & _)|(-> & -> & _)].
  - split; [|vm_compute; reflexivity]. apply Forall_forall. intros x H.
    assert (Q : forallb (fun x => (0 <=? x) && (x <? 2 ^ 64)) large_power_of_5_64 = true) by (vm_compute; reflexivity).
    rewrite forallb_forall in Q. specialize (Q x H). apply andb_true_iff in Q. destruct Q as [Q1 Q2].
    apply Z.leb_le in Q1. apply Z.ltb_lt in Q2. lia.
  - split; [|vm_compute; reflexivity]. apply Forall_forall. intros x H.
    assert (Q : forallb (fun x => (0 <=? x) && (x <? 2 ^ 32)) large_power_of_5_32 = true) by (vm_compute; reflexivity).
    rewrite forallb_forall in Q. specialize (Q x H). apply andb_true_iff in Q. destruct Q as [Q1 Q2].
    apply Z.leb_le in Q1. apply Z.ltb_lt in Q2. lia.
Qed.

Lemma pow5_pos n : 0 < 5 ^ n \/ n < 0.
Proof. destruct (Z_lt_ge_dec n 0); [right; assumption|left; apply Z.pow_pos_nonneg; lia]. Qed.

Lemma pow5_large_loop_spec c : forall fuel v e, limbs c v -> norm c v -> 0 < bv c v -> 0 <= e ->
  e < 135 * (Z.of_nat fuel) -> bv c v * 5 ^ e < top c ->
  exists r e', pow5_large_loop fuel c v e = Ok (true, r, e') /\ limbs c r /\ norm c r /\ 0 < bv c r /\
    0 <= e' < 135 /\ bv c r * 5 ^ e' = bv c v * 5 ^ e.
Proof.
  induction fuel as [|fuel IH]; intros v e LV NV PV HE HF HT; [lia|].
  cbn [pow5_large_loop]. destruct (Z.leb_spec 135 e) as [G|L].
  - destruct (large_power_ok c) as [L5 B5].
    assert (EQ : 5 ^ e = 5 ^ 135 * 5 ^ (e - 135)) by (rewrite <- Z.pow_add_r by lia; f_equal; lia).
    assert (P : 0 < 5 ^ 135 /\ 0 < 5 ^ (e - 135)) by (split; apply Z.pow_pos_nonneg; lia).
    rewrite EQ in *. clear EQ. set (q := 5 ^ 135) in *.
    destruct (large_mul_spec c v (large_power_of_5 c) LV NV PV L5 ltac:(lia)) as (x & -> & X1 & X2 & X3).
    { rewrite B5. nia. }
    cbn [bind negb]. rewrite B5 in X3.
    destruct (IH x (e - 135) X1 X2 ltac:(nia) ltac:(lia) ltac:(lia)) as (r & e' & -> & R1 & R2 & R3 & R4 & R5).
    { rewrite X3. lia. }
    exists r, e'. split; [reflexivity|]. split; [exact R1|]. split; [exact R2|]. split; [exact R3|]. split; [exact R4|].
    rewrite R5, X3. ring.
  - exists v, e. split; [reflexivity|]. split; [exact LV|]. split; [exact NV|]. split; [exact PV|]. split; [lia|reflexivity].
Qed.

Lemma max_native_ok c : max_native c = 5 ^ small_step c /\ 0 <= max_native c < 2 ^ lb c /\ 13 <= small_step c <= 27.
Proof.
  unfold max_native, small_step. destruct (lb_cases c) as [(-> & -> & _)|(-> & -> & _)]; repeat split; try reflexivity; lia.
Qed.

Lemma pow5_small_loop_spec c : forall fuel v e, limbs c v -> norm c v -> 0 < bv c v -> 0 <= e ->
  e < small_step c * (Z.of_nat fuel) -> bv c v * 5 ^ e < top c ->
  exists r e', pow5_small_loop fuel c v e = Ok (true, r, e') /\ limbs c r /\ norm c r /\ 0 < bv c r /\
    0 <= e' < small_step c /\ bv c r * 5 ^ e' = bv c v * 5 ^ e.
Proof.
  destruct (max_native_ok c) as (M1 & M2 & M3).
  induction fuel as [|fuel IH]; intros v e LV NV PV HE HF HT; [lia|].
  cbn [pow5_small_loop]. destruct (Z.leb_spec (small_step c) e) as [G|L].
  - assert (EQ : 5 ^ e = max_native c * 5 ^ (e - small_step c)) by (rewrite M1, <- Z.pow_add_r by lia; f_equal; lia).
    assert (P : 0 < 5 ^ (e - small_step c)) by (apply Z.pow_pos_nonneg; lia).
    assert (P' : 0 < max_native c) by (rewrite M1; apply Z.pow_pos_nonneg; lia).
    rewrite EQ in *. clear EQ.
    destruct (small_mul_spec c v (max_native c) LV M2) as (x & -> & X1 & X2 & X3).
    { nia. }
    cbn [negb]. 
    destruct (IH x (e - small_step c) X1 (X3 NV P') ltac:(nia) ltac:(lia) ltac:(lia)) as (r & e' & -> & R1 & R2 & R3 & R4 & R5).
    { rewrite X2. lia. }
    exists r, e'. split; [reflexivity|]. split; [exact R1|]. split; [exact R2|]. split; [exact R3|]. split; [exact R4|].
    rewrite R5, X2. ring.
  - exists v, e. split; [reflexivity|]. split; [exact LV|]. split; [exact NV|]. split; [exact PV|]. split; [lia|reflexivity].
Qed.

Lemma small_power_ok : forall e, 0 <= e < 28 -> nth_res small_power_of_5 e = Ok (5 ^ e).
Proof.
  intros e H. assert (Q : forallb (fun i => match nth_res small_power_of_5 (Z.of_nat i) with Ok y => y =? 5 ^ (Z.of_nat i) | UB => false end) (seq 0 28) = true) by (vm_compute; reflexivity).
  rewrite forallb_forall in Q. specialize (Q (Z.to_nat e)). rewrite in_seq in Q. specialize (Q ltac:(lia)).
  rewrite Z2Nat.id in Q by lia. destruct (nth_res small_power_of_5 e); [|discriminate].
  apply Z.eqb_eq in Q. congruence.
Qed.

Lemma big_pow5_spec c v e : limbs c v -> norm c v -> 0 < bv c v -> 0 <= e -> bv c v * 5 ^ e < top c ->
  exists r, big_pow5 c v e = Ok (true, r) /\ limbs c r /\ norm c r /\ bv c r = bv c v * 5 ^ e.
Proof.
  intros LV NV PV HE HT. unfold big_pow5.
  destruct (pow5_large_loop_spec c (S (Z.to_nat (e / 135))) v e LV NV PV HE) as (v1 & e1 & -> & A1 & A2 & A3 & A4 & A5).
  { pose proof (Z.div_mod e 135 ltac:(lia)). pose proof (Z.mod_pos_bound e 135 ltac:(lia)).
    assert (0 <= e / 135) by (apply Z.div_pos; lia). lia. }
  { exact HT. }
  cbn [bind negb]. rewrite <- A5 in HT |- *. clear A5 LV NV PV HE v e.
  destruct (max_native_ok c) as (M1 & M2 & M3).
  destruct (pow5_small_loop_spec c 12 v1 e1 A1 A2 A3 ltac:(lia) ltac:(lia) HT) as (v2 & e2 & -> & B1 & B2 & B3 & B4 & B5).
  cbn [bind negb]. rewrite <- B5 in HT |- *. clear B5 A1 A2 A3 A4 v1 e1.
  destruct (Z.eqb_spec e2 0) as [->|N]; cbn [negb].
  - exists v2. split; [reflexivity|]. split; [exact B1|]. split; [exact B2|]. lia.
  - rewrite small_power_ok by lia. cbn [bind].
    assert (P : 0 < 5 ^ e2) by (apply Z.pow_pos_nonneg; lia).
    assert (LE : 5 ^ e2 <= max_native c) by (rewrite M1; apply Z.pow_le_mono_r; lia).
    assert (W : wlimb c (5 ^ e2) = 5 ^ e2) by (unfold wlimb; apply Z.mod_small; fold (lb c); lia). rewrite W.
    destruct (small_mul_spec c v2 (5 ^ e2) B1 ltac:(lia) HT) as (r & -> & R1 & R2 & R3).
    exists r. split; [reflexivity|]. split; [exact R1|]. split; [apply R3; [exact B2|lia]|exact R2].
Qed.

Lemma shl_loop_spec c n : 0 < n < lb c -> forall l prev, limbs c l -> 0 <= prev < 2 ^ lb c ->
  exists r last, shl_loop c n l prev = (r, last) /\ limbs c r /\ vlen r = vlen l /\ 0 <= last < 2 ^ lb c /\
    bv c r + 2 ^ (lb c * vlen l) * (last / 2 ^ (lb c - n)) = bv c l * 2 ^ n + prev / 2 ^ (lb c - n).
Proof.
  intros Hn. induction l as [|x l IH]; intros prev L HP.
  - exists [], prev. cbn [shl_loop]. split; [reflexivity|]. split; [constructor|]. split; [reflexivity|]. split; [exact HP|].
    rewrite bv_nil. unfold vlen; cbn [length]. rewrite Z.mul_0_r, Z.pow_0_r. lia.
  - inversion L as [|? ? Hx Hl]; subst. cbn [shl_loop].
    destruct (IH x Hl Hx) as (r & last & -> & R1 & R2 & R3 & R4).
    assert (P1 : 0 < 2 ^ n) by (apply Z.pow_pos_nonneg; lia).
    assert (P2 : 0 < 2 ^ (lb c - n)) by (apply Z.pow_pos_nonneg; lia).
    assert (E : 2 ^ lb c = 2 ^ n * 2 ^ (lb c - n)) by (rewrite <- Z.pow_add_r by lia; f_equal; lia).
    pose proof (Z.div_mod x (2 ^ (lb c - n)) ltac:(lia)) as DX. pose proof (Z.mod_pos_bound x (2 ^ (lb c - n)) ltac:(lia)) as MX.
    assert (DP : 0 <= prev / 2 ^ (lb c - n) < 2 ^ n) by (split; [apply Z.div_pos; lia|apply Z.div_lt_upper_bound; lia]).
    assert (Y : Z.lor (wlimb c (Z.shiftl x n)) (Z.shiftr prev (limb_bits c - n)) =
                2 ^ n * (x mod 2 ^ (lb c - n)) + prev / 2 ^ (lb c - n)).
    { unfold wlimb. fold (lb c). rewrite Z.shiftl_mul_pow2, Z.shiftr_div_pow2 by lia.
      rewrite E at 1. rewrite (Z.mul_comm x), Z.mul_mod_distr_l by lia. rewrite (Z.mul_comm (2 ^ n)).
      rewrite Z.lor_comm, lor_add_disjoint by lia. lia. }
    rewrite Y. eexists _, last. split; [reflexivity|].
    split; [constructor; [nia|assumption]|]. rewrite !vlen_cons, R2. split; [reflexivity|]. split; [exact R3|].
    rewrite !bv_cons, pow_lb by apply vlen_nonneg.
    transitivity (2 ^ n * (x mod 2 ^ (lb c - n)) + prev / 2 ^ (lb c - n) + 2 ^ lb c * (bv c r + 2 ^ (lb c * vlen l) * (last / 2 ^ (lb c - n)))); [ring|].
    rewrite R4. rewrite E at 1. rewrite DX at 3. rewrite E. ring.
Qed.

Lemma shl_bits_spec c v n : limbs c v -> norm c v -> 0 < n < lb c -> bv c v * 2 ^ n < top c ->
  exists r, shl_bits c v n = Ok (true, r) /\ limbs c r /\ norm c r /\ bv c r = bv c v * 2 ^ n.
Proof.
  intros LV NV Hn HT. unfold shl_bits. fold (lb c).
  destruct (Z.leb_spec n 0); [lia|]. destruct (Z.leb_spec (lb c) n); [lia|]. cbn [orb].
  destruct (shl_loop_spec c n Hn v 0 LV) as (r & last & -> & R1 & R2 & R3 & R4); [pose proof (LB_pos c); lia|].
  rewrite Z.div_0_l, Z.add_0_r in R4 by (apply Z.pow_nonzero; lia).
  rewrite Z.shiftr_div_pow2 by lia.
  assert (P2 : 0 < 2 ^ (lb c - n)) by (apply Z.pow_pos_nonneg; lia).
  assert (P1 : 0 < 2 ^ n) by (apply Z.pow_pos_nonneg; lia).
  assert (D : 0 <= last / 2 ^ (lb c - n) < 2 ^ lb c).
  { split; [apply Z.div_pos; lia|]. apply Z.div_lt_upper_bound; [lia|]. nia. }
  set (k := last / 2 ^ (lb c - n)) in *. rewrite <- R2 in R4.
  destruct (Z.eqb_spec k 0) as [K|N]; cbn [negb].
  - exists r. split; [reflexivity|]. split; [exact R1|]. split; [|lia].
    apply (norm_value c v); [exact NV|exact R2|]. pose proof (bv_range c v LV). nia.
  - rewrite try_push_ok; [|exact R1|lia|lia].
    exists (r ++ [k]). split; [reflexivity|].
    split; [apply limbs_app; split; [exact R1|constructor; [lia|constructor]]|].
    split; [apply norm_snoc; [exact R1|lia]|]. rewrite bv_app, bv_cons, bv_nil. lia.
Qed.

Lemma shl_limbs_spec c v n : limbs c v -> norm c v -> 0 < bv c v -> 0 <= n -> bv c v * 2 ^ (lb c * n) < top c ->
  exists r, shl_limbs c v n = (true, r) /\ limbs c r /\ norm c r /\ bv c r = bv c v * 2 ^ (lb c * n).
Proof.
  intros LV NV PV Hn HT. unfold shl_limbs. fold (cap c). pose proof (nonzero_nonnil c v PV) as NN.
  pose proof (lb_pos c) as LP. pose proof (pow_lb_pos c n Hn) as PN.
  assert (V1 : 1 <= vlen v) by (destruct v; [congruence|rewrite vlen_cons; pose proof (vlen_nonneg v); lia]).
  destruct NV as [NV|NV]; [congruence|].
  destruct (Z.ltb_spec (cap c) (n + vlen v)) as [G|_].
  - exfalso. unfold top in HT.
    assert (2 ^ (lb c * cap c) <= 2 ^ (lb c * (vlen v - 1)) * 2 ^ (lb c * n)).
    { rewrite <- Z.pow_add_r by nia. apply Z.pow_le_mono_r; nia. }
    nia.
  - destruct (repeat0 c (Z.to_nat n)) as [Q1 Q2].
    assert (E : (match v with [] => (true, []) | _ :: _ => (true, repeat 0 (Z.to_nat n) ++ v) end) = (true, repeat 0 (Z.to_nat n) ++ v)) by (destruct v; [congruence|reflexivity]).
    rewrite E. eexists. split; [reflexivity|]. split; [apply limbs_app; auto|].
    assert (VR : vlen (repeat 0 (Z.to_nat n)) = n) by (unfold vlen; rewrite repeat_length; lia).
    assert (B : bv c (repeat 0 (Z.to_nat n) ++ v) = bv c v * 2 ^ (lb c * n)) by (rewrite bv_app, Q2, VR; lia).
    split; [|exact B]. right. rewrite B, vlen_app, VR.
    replace (lb c * (n + vlen v - 1)) with (lb c * (vlen v - 1) + lb c * n) by lia.
    rewrite Z.pow_add_r by nia. nia.
Qed.

Lemma big_pow2_spec c v n : limbs c v -> norm c v -> 0 < bv c v -> 0 <= n -> bv c v * 2 ^ n < top c ->
  exists r, big_pow2 c v n = Ok (true, r) /\ limbs c r /\ norm c r /\ bv c r = bv c v * 2 ^ n.
Proof.
  intros LV NV PV Hn HT. unfold big_pow2. fold (lb c). pose proof (lb_pos c) as LP.
  pose proof (Z.div_mod n (lb c) ltac:(lia)) as D. pose proof (Z.mod_pos_bound n (lb c) ltac:(lia)) as M.
  assert (Q : 0 <= n / lb c) by (apply Z.div_pos; lia).
  set (k := n mod lb c) in *. set (q := n / lb c) in *.
  assert (E : 2 ^ n = 2 ^ k * 2 ^ (lb c * q)) by (rewrite <- Z.pow_add_r by nia; f_equal; lia).
  rewrite E in *. clear E D. clearbody k q.
  assert (PK : 0 < 2 ^ k) by (apply Z.pow_pos_nonneg; lia). pose proof (pow_lb_pos c q Q) as PQ.
  assert (X : exists v1, (if negb (k =? 0) then shl_bits c v k else Ok (true, v)) = Ok (true, v1) /\
     limbs c v1 /\ norm c v1 /\ bv c v1 = bv c v * 2 ^ k).
  { destruct (Z.eqb_spec k 0) as [->|N]; cbn [negb].
    - exists v. repeat split; try assumption. rewrite Z.pow_0_r. lia.
    - apply shl_bits_spec; [assumption|assumption|lia|nia]. }
  destruct X as (v1 & -> & A1 & A2 & A3). cbn [bind negb].
  destruct (Z.eqb_spec q 0) as [->|N]; cbn [negb].
  - exists v1. split; [reflexivity|]. split; [exact A1|]. split; [exact A2|]. rewrite A3, Z.mul_0_r. lia.
  - destruct (shl_limbs_spec c v1 q A1 A2 ltac:(nia) Q ltac:(rewrite A3; lia)) as (r & -> & R1 & R2 & R3).
    exists r. split; [reflexivity|]. split; [exact R1|]. split; [exact R2|]. rewrite R3, A3. ring.
Qed.

Lemma big_pow10_spec c v n : limbs c v -> norm c v -> 0 < bv c v -> 0 <= n -> bv c v * 10 ^ n < top c ->
  exists r, big_pow10 c v n = Ok (true, r) /\ limbs c r /\ norm c r /\ bv c r = bv c v * 10 ^ n.
Proof.
  intros LV NV PV Hn HT. unfold big_pow10.
  assert (E : 10 ^ n = 5 ^ n * 2 ^ n) by (rewrite <- Z.pow_mul_l; reflexivity). rewrite E in *. clear E.
  assert (P5 : 0 < 5 ^ n) by (apply Z.pow_pos_nonneg; lia). assert (P2 : 0 < 2 ^ n) by (apply Z.pow_pos_nonneg; lia).
  destruct (big_pow5_spec c v n LV NV PV Hn ltac:(nia)) as (v1 & -> & A1 & A2 & A3). cbn [bind negb].
  destruct (big_pow2_spec c v1 n A1 A2 ltac:(nia) Hn ltac:(rewrite A3; nia)) as (r & -> & R1 & R2 & R3).
  exists r. split; [reflexivity|]. split; [exact R1|]. split; [exact R2|]. rewrite R3, A3. ring.
Qed.

(** ** Conversion from a word *)

Lemma bigint_of_u64_spec c x : 0 <= x < 2 ^ 64 ->
  exists r, bigint_of_u64 c x = Ok r /\ limbs c r /\ norm c r /\ bv c r = x.
Proof.
  intros H. unfold bigint_of_u64, push_unchecked. fold (cap c).
  destruct (lb_cases c) as [(E & EL & EC)|(E & EL & EC)]; rewrite E, EC; cbn [app bind].
  - unfold vlen; cbn [length]. cbn -[normalize Z.pow].
    destruct (normalize_spec c [x]) as (A & B & C); [constructor; [rewrite EL; exact H|constructor]|].
    exists (normalize [x]). repeat split; try assumption. rewrite B, bv_cons, bv_nil. lia.
  - unfold vlen; cbn [length]. cbn -[normalize Z.pow u32 Z.shiftr].
    pose proof (Z.div_mod x (2 ^ 32) ltac:(lia)) as D. pose proof (Z.mod_pos_bound x (2 ^ 32) ltac:(lia)) as M.
    assert (Q : 0 <= x / 2 ^ 32 < 2 ^ 32) by (split; [apply Z.div_pos; lia|apply Z.div_lt_upper_bound; lia]).
    rewrite (u32_small (Z.shiftr x 32)) by (rewrite Z.shiftr_div_pow2 by lia; exact Q). rewrite Z.shiftr_div_pow2 by lia. unfold u32.
    destruct (normalize_spec c [x mod 2 ^ 32; x / 2 ^ 32]) as (A & B & C).
    { constructor; [rewrite EL; exact M|constructor; [rewrite EL; exact Q|constructor]]. }
    exists (normalize [x mod 2 ^ 32; x / 2 ^ 32]). repeat split; try assumption.
    rewrite B, !bv_cons, bv_nil, EL. lia.
Qed.

(** ** Comparison *)

Lemma compare_loop_spec c : forall x y, length x = length y -> limbs c x -> limbs c y ->
  (compare_loop x y = 1 /\ bv c (rev y) < bv c (rev x)) \/
  (compare_loop x y = -1 /\ bv c (rev x) < bv c (rev y)) \/
  (compare_loop x y = 0 /\ bv c (rev x) = bv c (rev y)).
Proof.
  induction x as [|a x IH]; intros [|b y] HL LX LY; try discriminate.
  - right; right. split; reflexivity.
  - cbn [compare_loop rev]. inversion LX as [|? ? Ha Hx]; subst. inversion LY as [|? ? Hb Hy]; subst.
    cbn [length] in HL. rewrite !bv_app, !bv_cons, !bv_nil.
    assert (V : vlen (rev x) = vlen (rev y)) by (unfold vlen; rewrite !rev_length; lia). rewrite V.
    assert (LX' : limbs c (rev x)) by (apply Forall_rev; exact Hx).
    assert (LY' : limbs c (rev y)) by (apply Forall_rev; exact Hy).
    pose proof (bv_range c _ LX') as RX. pose proof (bv_range c _ LY') as RY. rewrite V in RX.
    pose proof (pow_lb_pos c (vlen (rev y)) (vlen_nonneg _)) as P.
    destruct (Z.ltb_spec b a); [left; split; [reflexivity|nia]|].
    destruct (Z.ltb_spec a b); [right; left; split; [reflexivity|nia]|].
    assert (a = b) by lia. subst. destruct (IH y ltac:(lia) Hx Hy) as [[E L]|[[E L]|[E L]]]; rewrite E.
    + left. split; [reflexivity|nia].
    + right; left. split; [reflexivity|nia].
    + right; right. split; [reflexivity|nia].
Qed.

Lemma norm_vlen_lt c x y : limbs c x -> norm c y -> vlen x < vlen y -> bv c x < bv c y.
Proof.
  intros LX NY H. pose proof (bv_range c x LX). pose proof (vlen_nonneg x). pose proof (lb_pos c).
  destruct NY as [->|NY]; [unfold vlen at 2 in H; cbn [length] in H; lia|].
  assert (2 ^ (lb c * vlen x) <= 2 ^ (lb c * (vlen y - 1))) by (apply Z.pow_le_mono_r; nia). lia.
Qed.

Lemma big_compare_spec c x y : limbs c x -> limbs c y -> norm c x -> norm c y ->
  (big_compare x y = 1 /\ bv c y < bv c x) \/ (big_compare x y = -1 /\ bv c x < bv c y) \/
  (big_compare x y = 0 /\ bv c x = bv c y).
Proof.
  intros LX LY NX NY. unfold big_compare.
  destruct (Z.ltb_spec (vlen y) (vlen x)) as [A|A]; [left; split; [reflexivity|apply norm_vlen_lt; assumption]|].
  destruct (Z.ltb_spec (vlen x) (vlen y)) as [B|B]; [right; left; split; [reflexivity|apply norm_vlen_lt; assumption]|].
  pose proof (compare_loop_spec c (rev x) (rev y)) as H. rewrite !rev_involutive in H.
  apply H; [rewrite !rev_length; unfold vlen in *; lia| |]; apply Forall_rev; assumption.
Qed.

(** ** The top 64 bits *)

Definition hi_ok (N m : Z) (tr : bool) : Prop :=
  2 ^ 63 <= m < 2 ^ 64 /\ m * 2 ^ (Z.log2 N + 1) <= N * 2 ^ 64 < (m + 1) * 2 ^ (Z.log2 N + 1) /\
  (tr = true <-> m * 2 ^ (Z.log2 N + 1) < N * 2 ^ 64).

Lemma hi64_1_ok c x : 0 < x < 2 ^ 64 -> exists m tr, uint64_hi64_1 c x = Ok (m, tr) /\ hi_ok x m tr.
Proof.
  intros H. unfold uint64_hi64_1. rewrite leading_zeroes_spec by exact H. cbn [bind].
  assert (L : 0 <= Z.log2 x < 64) by (split; [apply Z.log2_nonneg|apply Z.log2_lt_pow2; lia]).
  destruct (Z.log2_spec x ltac:(lia)) as [L1 L2]. unfold Z.succ in L2.
  set (l := Z.log2 x) in *.
  assert (E : 2 ^ 63 = 2 ^ l * 2 ^ (63 - l)) by (rewrite <- Z.pow_add_r by lia; f_equal; lia).
  assert (P : 0 < 2 ^ (63 - l)) by (apply Z.pow_pos_nonneg; lia).
  assert (P2 : 0 < 2 ^ l) by (apply Z.pow_pos_nonneg; lia).
  rewrite Z.pow_add_r in L2 by lia. change (2 ^ 1) with 2 in L2.
  assert (E4 : 2 ^ 64 = 2 * 2 ^ 63) by reflexivity.
  rewrite shl_small; [|lia|rewrite E4, E; nia]. cbn [bind].
  exists (x * 2 ^ (63 - l)), false. split; [reflexivity|].
  assert (E2 : x * 2 ^ (63 - l) * 2 ^ (l + 1) = x * 2 ^ 64).
  { rewrite <- Z.mul_assoc, <- Z.pow_add_r by lia. f_equal. f_equal. lia. }
  unfold hi_ok. fold l. split; [|split].
  - rewrite E4, E. nia.
  - rewrite E2. split; [lia|]. rewrite Z.mul_add_distr_r, E2. assert (0 < 2 ^ (l + 1)) by (apply Z.pow_pos_nonneg; lia). lia.
  - rewrite E2. split; [discriminate|lia].
Qed.

Lemma log2_split a b j : 0 < a -> 0 <= b < 2 ^ j -> 0 <= j -> Z.log2 (a * 2 ^ j + b) = Z.log2 a + j.
Proof.
  intros Ha Hb Hj. destruct (Z.log2_spec a Ha) as [L1 L2]. unfold Z.succ in L2.
  pose proof (Z.log2_nonneg a) as Q. assert (P : 0 < 2 ^ j) by (apply Z.pow_pos_nonneg; lia).
  apply Z.log2_unique; [lia|]. unfold Z.succ. replace (Z.log2 a + j + 1) with (Z.log2 a + 1 + j) by lia.
  rewrite !Z.pow_add_r in * by lia. split; [nia|]. nia.
Qed.

Lemma hi64_2_ok c r0 r1 : 0 < r0 < 2 ^ 64 -> 0 <= r1 < 2 ^ 64 ->
  exists m tr, uint64_hi64_2 c r0 r1 = Ok (m, tr) /\ hi_ok (r0 * 2 ^ 64 + r1) m tr.
Proof.
  intros H H1. unfold uint64_hi64_2. rewrite leading_zeroes_spec by exact H. cbn [bind].
  assert (L : 0 <= Z.log2 r0 < 64) by (split; [apply Z.log2_nonneg|apply Z.log2_lt_pow2; lia]).
  destruct (Z.log2_spec r0 ltac:(lia)) as [L1 L2]. unfold Z.succ in L2.
  unfold hi_ok. rewrite log2_split by lia.
  set (l := Z.log2 r0) in *.
  assert (E : 2 ^ 63 = 2 ^ l * 2 ^ (63 - l)) by (rewrite <- Z.pow_add_r by lia; f_equal; lia).
  assert (P : 0 < 2 ^ (63 - l)) by (apply Z.pow_pos_nonneg; lia).
  assert (P2 : 0 < 2 ^ l) by (apply Z.pow_pos_nonneg; lia).
  assert (E4 : 2 ^ 64 = 2 * 2 ^ 63) by reflexivity.
  replace (l + 64 + 1) with (l + 1 + 64) by lia.
  rewrite (Z.pow_add_r 2 (l + 1) 64) by lia. rewrite Z.pow_add_r in L2 |- * by lia. change (2 ^ 1) with 2 in *.
  destruct (Z.eqb_spec (63 - l) 0) as [S|S].
  - assert (L63 : l = 63) by lia. rewrite L63 in *.
    exists r0, (negb (r1 =? 0)). split; [reflexivity|]. rewrite E4 in *. set (B := 2 ^ 63) in *.
    split; [lia|]. split; [nia|]. destruct (Z.eqb_spec r1 0); cbn [negb]; split; intros; try discriminate; try reflexivity; nia.
  - set (s := 63 - l) in *. rewrite (shl_Ok 64 r1 s) by lia. rewrite (shl_small 64 r0 s) by (try lia; rewrite E4, E; nia).
    cbn [bind]. rewrite shr_Ok by lia. cbn [bind].
    assert (E5 : 2 ^ 64 = 2 ^ s * 2 ^ (64 - s)) by (rewrite <- Z.pow_add_r by lia; f_equal; lia).
    assert (P3 : 0 < 2 ^ (64 - s)) by (apply Z.pow_pos_nonneg; lia).
    assert (Q : 0 <= r1 / 2 ^ (64 - s) < 2 ^ s) by (split; [apply Z.div_pos; lia|apply Z.div_lt_upper_bound; lia]).
    rewrite (Z.lor_comm (r0 * 2 ^ s)), lor_add_disjoint by lia.
    pose proof (Z.div_mod r1 (2 ^ (64 - s)) ltac:(lia)) as D. pose proof (Z.mod_pos_bound r1 (2 ^ (64 - s)) ltac:(lia)) as M.
    assert (LO : (r1 * 2 ^ s) mod 2 ^ 64 = 2 ^ s * (r1 mod 2 ^ (64 - s))).
    { rewrite E5, (Z.mul_comm r1), Z.mul_mod_distr_l by lia. reflexivity. }
    rewrite LO. set (q := r1 / 2 ^ (64 - s)) in *. set (lo := r1 mod 2 ^ (64 - s)) in *.
    set (S2 := 2 ^ s) in *. set (T := 2 ^ (64 - s)) in *. set (U := 2 ^ l) in *.
    assert (ET : U * 2 = T). { unfold U, T. replace (64 - s) with (l + 1) by lia. rewrite Z.pow_add_r by lia. reflexivity. }
    assert (E6 : (r0 * 2 ^ 64 + r1) * 2 ^ 64 = ((q + r0 * S2) * T + lo) * 2 ^ 64) by (rewrite D, E5; ring).
    eexists _, _. split; [reflexivity|]. rewrite E6.
    split; [|split].
    + rewrite E4, E. clear - L1 L2 Q P2 P. fold S2 in Q, P. clearbody U S2. nia.
    + rewrite ET. clear - M. set (W := 2 ^ 64). assert (PW : 0 < W) by reflexivity. clearbody W lo T.
      set (a := q + r0 * S2). clearbody a.
      replace (a * (T * W)) with (a * T * W) by ring. replace ((a + 1) * (T * W)) with ((a * T + T) * W) by ring.
      split; [apply Z.mul_le_mono_nonneg_r; lia|apply Z.mul_lt_mono_pos_r; lia].
    + rewrite ET. clear - M P. assert (PS : 0 < S2) by exact P. set (W := 2 ^ 64). assert (PW : 0 < W) by reflexivity. clearbody W lo T S2.
      set (a := q + r0 * S2). clearbody a.
      replace (a * (T * W)) with (a * T * W) by ring.
      rewrite <- Z.mul_lt_mono_pos_r by exact PW.
      destruct (Z.eqb_spec (S2 * lo) 0) as [Z0|Z0]; cbn [negb]; split; intros A; try discriminate; try reflexivity.
      * assert (lo = 0) by (apply Z.mul_eq_0 in Z0; lia). lia.
      * assert (lo <> 0) by (intros ->; lia). lia.
Qed.

(** Extending by lower limbs. *)
Lemma hi_ok_extend X m tr low j (b : bool) : hi_ok X m tr -> 0 < X -> 0 <= low < 2 ^ j -> 0 <= j ->
  (b = true <-> low <> 0) -> (forall k, m * 2 ^ k <= X * 2 ^ 64 -> Z.log2 X + 1 = k -> 64 <= k) ->
  hi_ok (X * 2 ^ j + low) m (tr || b).
Proof.
  intros (H1 & H2 & H3) HX HL Hj HB HK. pose proof H1 as H1'. unfold hi_ok. rewrite log2_split by assumption.
  specialize (HK _ (proj1 H2) eq_refl).
  set (k := Z.log2 X + 1) in *. replace (Z.log2 X + j + 1) with (k + j) by lia.
  assert (P : 0 < 2 ^ j) by (apply Z.pow_pos_nonneg; lia).
  assert (E : 2 ^ k = 2 ^ (k - 64) * 2 ^ 64) by (rewrite <- Z.pow_add_r by lia; f_equal; lia).
  assert (P1 : 0 < 2 ^ (k - 64)) by (apply Z.pow_pos_nonneg; lia).
  rewrite Z.pow_add_r by lia. rewrite E in *. set (V := 2 ^ (k - 64)) in *. set (W := 2 ^ 64) in *.
  assert (PW : 0 < W) by reflexivity. set (J := 2 ^ j) in *. clearbody V W J k.
  rewrite !Z.mul_assoc in *.
  rewrite <- Z.mul_le_mono_pos_r, <- Z.mul_lt_mono_pos_r in H2 by exact PW.
  rewrite <- Z.mul_lt_mono_pos_r in H3 by exact PW.
  replace (m * V * W * J) with (m * V * J * W) by ring. replace ((m + 1) * V * W * J) with ((m + 1) * V * J * W) by ring.
  rewrite <- Z.mul_le_mono_pos_r, <- !Z.mul_lt_mono_pos_r by exact PW.
  set (a := m * V) in *. set (b' := (m + 1) * V) in *. clearbody a b'. clear E P1 H1.
  split; [exact H1'|]. split; [nia|].
  rewrite orb_true_iff, HB, H3. split.
  - intros [A|A]; nia.
  - intros A. destruct (Z.eq_dec low 0) as [->|N]; [left; nia|right; exact N].
Qed.

Lemma nonzero_spec c w l : limbs c w -> nonzero (w ++ l) (Z.of_nat (length l)) = true <-> bv c w <> 0.
Proof.
  intros L. unfold nonzero. rewrite rev_app_distr, Nat2Z.id, <- (rev_length l), skipn_app, skipn_all, Nat.sub_diag. cbn [skipn app].
  assert (E : existsb (fun x => negb (x =? 0)) (rev w) = existsb (fun x => negb (x =? 0)) w).
  { apply eq_true_iff_eq. rewrite !existsb_exists. split; intros (x & A & B); exists x; split; try exact B.
    - apply in_rev. exact A. - apply in_rev in A. exact A. }
  rewrite E. clear E. induction L as [|x w Hx Hw IH].
  - cbn [existsb]. rewrite bv_nil. split; [discriminate|lia].
  - cbn [existsb]. rewrite bv_cons, orb_true_iff, IH. pose proof (bv_range c w Hw). pose proof (LB_pos c).
    destruct (Z.eqb_spec x 0) as [->|N]; cbn [negb]; split; intros A.
    + destruct A; [discriminate|nia].
    + right. nia.
    + nia.
    + left. reflexivity.
Qed.

Lemma rindex_0 v x : rindex (v ++ [x]) 0 = Ok x.
Proof. unfold rindex. rewrite rev_app_distr. reflexivity. Qed.
Lemma rindex_1 v x y : rindex (v ++ [x; y]) 1 = Ok x.
Proof. unfold rindex. rewrite rev_app_distr. reflexivity. Qed.
Lemma rindex_1_0 v x y : rindex (v ++ [x; y]) 0 = Ok y.
Proof. unfold rindex. rewrite rev_app_distr. reflexivity. Qed.

Lemma snoc_cases {A} (v : list A) : v = [] \/ (exists x, v = [x]) \/ (exists x y, v = [x; y]) \/ (exists w x y z, v = w ++ [x; y; z]).
Proof.
  destruct v as [|x v] using rev_ind; [left; reflexivity|]. clear IHv.
  destruct v as [|y v] using rev_ind; [right; left; exists x; reflexivity|]. clear IHv.
  destruct v as [|z v] using rev_ind; [right; right; left; exists y, x; reflexivity|]. clear IHv.
  right; right; right. exists v, z, y, x. rewrite <- !app_assoc. reflexivity.
Qed.

Lemma hi64_spec c v : limbs c v -> norm c v -> 0 < bv c v -> bv c v < top c ->
  exists m tr bl, hi64 c v = Ok (m, tr) /\ hi_ok (bv c v) m tr /\
    bit_length c v = Ok bl /\ bl = Z.log2 (bv c v) + 1.
Proof.
  intros LV NV PV HT.
  pose proof (norm_fits c v NV HT) as VC.
  (* bit length *)
  assert (BL : exists bl, bit_length c v = Ok bl /\ bl = Z.log2 (bv c v) + 1).
  { destruct v as [|r0 v _] using rev_ind; [rewrite bv_nil in PV; lia|].
    pose proof (norm_last c v r0 LV NV) as R0. apply limbs_app in LV. destruct LV as [L1 L2]. inversion L2 as [|? ? H0 _]; subst.
    rewrite bv_app, bv_cons, bv_nil, Z.mul_0_r, Z.add_0_r.
    assert (LG : Z.log2 (bv c v + 2 ^ (lb c * vlen v) * r0) = Z.log2 r0 + lb c * vlen v).
    { rewrite Z.add_comm, Z.mul_comm. apply log2_split; [exact R0|apply bv_range; exact L1|]. pose proof (lb_pos c). pose proof (vlen_nonneg v). nia. }
    rewrite LG. unfold bit_length. rewrite vlen_app in *. unfold vlen at 2 in VC. unfold vlen at 2. cbn [length] in *. change (Z.of_nat 1) with 1 in *.
    assert (CT : ctlz c (v ++ [r0]) = Ok (lb c - 1 - Z.log2 r0)).
    { unfold ctlz. rewrite rindex_0.
      destruct (v ++ [r0]) eqn:EV; [destruct v; discriminate|]. cbn [bind].
      destruct (lb_cases c) as [(-> & EL & _)|(-> & EL & _)]; rewrite EL in *.
      - rewrite leading_zeroes_spec by lia. reflexivity.
      - rewrite shl_small by lia. cbn [bind]. rewrite leading_zeroes_spec by lia.
        rewrite Z.log2_mul_pow2 by lia. f_equal. lia. }
    rewrite CT. cbn [bind]. pose proof (vlen_nonneg v).
    assert (LR : 0 <= Z.log2 r0 < lb c) by (split; [apply Z.log2_nonneg|apply Z.log2_lt_pow2; lia]).
    eexists. split; [|reflexivity]. fold (lb c).
    replace (lb c * (vlen v + 1) - (lb c - 1 - Z.log2 r0)) with (Z.log2 r0 + lb c * vlen v + 1) by lia.
    apply chk32_Ok. destruct (lb_cases c) as [(_ & EL & EC)|(_ & EL & EC)]; rewrite EL, EC in *; nia. }
  destruct BL as (bl & BL1 & BL2).
  assert (HI : exists m tr, hi64 c v = Ok (m, tr) /\ hi_ok (bv c v) m tr).
  2:{ destruct HI as (m & tr & A & B). exists m, tr, bl. auto. }
  clear BL1 BL2 bl HT VC. unfold hi64.
  destruct (lb_cases c) as [(-> & EL & _)|(-> & EL & _)].
  - destruct (snoc_cases v) as [->|[(r0 & ->)|X]]; [rewrite bv_nil in PV; lia| |].
    + unfold vlen. cbn [length]. cbn -[uint64_hi64_1]. inversion LV as [|? ? H0 _]; subst.
      rewrite bv_cons, bv_nil, Z.mul_0_r, Z.add_0_r in *. rewrite EL in *. apply hi64_1_ok. lia.
    + assert (X' : exists w r1 r0, v = w ++ [r1; r0]).
      { destruct X as [(r1 & r0 & ->)|(w & a & r1 & r0 & ->)]; [exists [], r1, r0; reflexivity|exists (w ++ [a]), r1, r0; rewrite <- app_assoc; reflexivity]. }
      clear X. destruct X' as (w & r1 & r0 & ->).
      assert (VL : 2 <= vlen (w ++ [r1; r0])) by (rewrite vlen_app; pose proof (vlen_nonneg w); unfold vlen at 2; cbn [length]; lia).
      destruct (Z.eqb_spec (vlen (w ++ [r1; r0])) 0); [lia|]. destruct (Z.eqb_spec (vlen (w ++ [r1; r0])) 1); [lia|].
      rewrite rindex_1, rindex_1_0. cbn [bind].
      assert (R0 : 0 < r0). { apply (norm_last c (w ++ [r1])); rewrite <- app_assoc; assumption. }
      apply limbs_app in LV. destruct LV as [L1 L2]. inversion L2 as [|? ? H1 L3]; subst. inversion L3 as [|? ? H0 _]; subst.
      rewrite EL in H0, H1.
      destruct (hi64_2_ok c r0 r1 ltac:(lia) H1) as (m & tr & -> & OK). cbn [bind].
      eexists _, _. split; [reflexivity|].
      assert (BE : bv c (w ++ [r1; r0]) = (r0 * 2 ^ 64 + r1) * 2 ^ (lb c * vlen w) + bv c w).
      { rewrite bv_app, !bv_cons, bv_nil, EL. ring. }
      rewrite BE. apply hi_ok_extend; [exact OK|nia|apply bv_range; exact L1|rewrite EL; pose proof (vlen_nonneg w); nia| |].
      * apply (nonzero_spec c w [r1; r0] L1).
      * intros k _ <-. rewrite log2_split by lia. pose proof (Z.log2_nonneg r0). lia.
  - destruct (snoc_cases v) as [->|[(r0 & ->)|[(r1 & r0 & ->)|(w & r2 & r1 & r0 & ->)]]]; [rewrite bv_nil in PV; lia| | |].
    + unfold vlen. cbn [length]. cbn -[uint32_hi64_1]. inversion LV as [|? ? H0 _]; subst.
      rewrite bv_cons, bv_nil, Z.mul_0_r, Z.add_0_r in *. rewrite EL in *. apply hi64_1_ok. lia.
    + change (vlen [r1; r0]) with 2. change (2 =? 0) with false. change (2 =? 1) with false. change (2 =? 2) with true. cbv iota.
      change (rindex [r1; r0] 0) with (Ok r0). change (rindex [r1; r0] 1) with (Ok r1). cbn [bind]. inversion LV as [|? ? H1 L3]; subst. inversion L3 as [|? ? H0 _]; subst.
      rewrite !bv_cons, bv_nil, Z.mul_0_r, Z.add_0_r in *. rewrite EL in *. unfold uint32_hi64_2.
      rewrite Z.shiftl_mul_pow2 by lia. rewrite u64_small by lia. rewrite Z.lor_comm, lor_add_disjoint by lia.
      replace (r1 + r0 * 2 ^ 32) with (r1 + 2 ^ 32 * r0) by ring. apply hi64_1_ok. lia.
    + assert (VL : 3 <= vlen (w ++ [r2; r1; r0])) by (rewrite vlen_app; pose proof (vlen_nonneg w); unfold vlen at 2; cbn [length]; lia).
      destruct (Z.eqb_spec (vlen (w ++ [r2; r1; r0])) 0); [lia|]. destruct (Z.eqb_spec (vlen (w ++ [r2; r1; r0])) 1); [lia|].
      destruct (Z.eqb_spec (vlen (w ++ [r2; r1; r0])) 2); [lia|].
      assert (RI : rindex (w ++ [r2; r1; r0]) 0 = Ok r0 /\ rindex (w ++ [r2; r1; r0]) 1 = Ok r1 /\ rindex (w ++ [r2; r1; r0]) 2 = Ok r2)
        by (unfold rindex; rewrite rev_app_distr; repeat split; reflexivity).
      destruct RI as (-> & -> & ->). cbn [bind].
      assert (R0 : 0 < r0). { apply (norm_last c (w ++ [r2; r1])); rewrite <- app_assoc; assumption. }
      apply limbs_app in LV. destruct LV as [L1 L2]. inversion L2 as [|? ? H2 L3]; subst. inversion L3 as [|? ? H1 L4]; subst.
      inversion L4 as [|? ? H0 _]; subst. rewrite EL in H0, H1, H2.
      unfold uint32_hi64_3. rewrite Z.shiftl_mul_pow2 by lia. rewrite u64_small by lia. rewrite Z.lor_comm, lor_add_disjoint by lia.
      destruct (hi64_2_ok c r0 (r2 + r1 * 2 ^ 32) ltac:(lia) ltac:(lia)) as (m & tr & -> & OK). cbn [bind].
      eexists _, _. split; [reflexivity|].
      assert (BE : bv c (w ++ [r2; r1; r0]) = (r0 * 2 ^ 64 + (r2 + r1 * 2 ^ 32)) * 2 ^ (lb c * vlen w) + bv c w).
      { rewrite bv_app, !bv_cons, bv_nil, EL. change (2 ^ 64) with (2 ^ 32 * 2 ^ 32). ring. }
      rewrite BE. apply hi_ok_extend; [exact OK|nia|apply bv_range; exact L1|rewrite EL; pose proof (vlen_nonneg w); nia| |].
      * apply (nonzero_spec c w [r2; r1; r0] L1).
      * intros k _ <-. rewrite log2_split by lia. pose proof (Z.log2_nonneg r0). lia.
Qed.
