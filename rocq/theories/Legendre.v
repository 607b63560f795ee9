(** The convergents of T / 2^137 are enough: if some significand makes an
    ambiguous product, the search of script/mushtak_lemire.py finds one. *)
From Coq Require Import ZArith List Lia.
From Verif Require Import TableScript TableProof TableProof2.
Import ListNotations.
Open Scope Z_scope.

(** The denominator q1 of a convergent p1 / q1 that is a solution itself *)
Definition good (T p1 q1 : Z) : Prop := 0 < q1 /\ 0 < p1 * 2 ^ 137 - q1 * T < 2 ^ 64.

Lemma good_test T p q : good T p q -> 2 ^ 137 - 2 ^ 64 < (T * q) mod 2 ^ 137.
Proof.
  intros (Q & H). set (m := 2 ^ 137) in *. assert (M : 0 < m) by reflexivity.
  assert (E : (T * q) mod m = m - (p * m - q * T)).
  { symmetry. apply (Z.mod_unique_pos _ _ (p - 1)); [|ring]. assert (2 ^ 64 < m) by reflexivity. lia. }
  rewrite E. lia.
Qed.

(** One step of the argument: q1 <= w < q with q the next denominator *)
Lemma between s T m p1 q1 p q d r k w eps W :
  s = 1 \/ s = -1 -> 0 < m -> 0 <= q1 -> 0 < q ->
  p * q1 - p1 * q = s ->
  d = s * (q1 * T - p1 * m) -> r = - s * (q * T - p * m) -> 0 < d -> 0 <= r ->
  0 < w -> q1 <= w < q -> eps = k * m - w * T -> 0 < eps < W -> 2 * w * eps < m ->
  0 < q1 /\ 0 < p1 * m - q1 * T < W.
Proof.
  intros S M Q1 Q DET D R D0 R0 W0 WQ E EP SMALL.
  set (y := s * (k * q1 - w * p1)). set (x := s * (p * w - q * k)).
  assert (S2 : s * s = 1) by (destruct S as [-> | ->]; reflexivity).
  assert (EW : w = x * q1 + y * q).
  { unfold x, y. transitivity (s * (p * q1 - p1 * q) * w); [rewrite DET, S2; ring|ring]. }
  assert (EK : k = x * p1 + y * p).
  { unfold x, y. transitivity (s * (p * q1 - p1 * q) * k); [rewrite DET, S2; ring|ring]. }
  assert (EE : eps = s * (y * r - x * d)).
  { rewrite D, R. transitivity ((s * s) * (x * (p1 * m - q1 * T) + y * (p * m - q * T))); [|ring].
    rewrite S2, E, EK, EW. ring. }
  assert (EY : m * (k * q1 - w * p1) = q1 * eps + w * (q1 * T - p1 * m)) by (rewrite E; ring).
  assert (ED : q1 * T - p1 * m = s * d).
  { rewrite D. transitivity ((s * s) * (q1 * T - p1 * m)); [rewrite S2; ring|ring]. }
  assert (YY : k * q1 - w * p1 = s * y).
  { unfold y. transitivity ((s * s) * (k * q1 - w * p1)); [rewrite S2; ring|ring]. }
  rewrite YY, ED in EY. replace (p1 * m - q1 * T) with (- (s * d)) by lia.
  clearbody x y. clear D R DET E EK YY.
  destruct (Z.eq_dec y 0) as [Y|Y].
  - subst y. assert (X : 0 < x /\ 0 < q1) by nia. destruct X as (X & Q1').
    split; [exact Q1'|]. destruct S as [-> | ->]; nia.
  - exfalso. assert (X : (0 < y /\ x < 0) \/ (y < 0 /\ 0 < x)).
    { destruct (Z_lt_ge_dec 0 y); [left|right]; (split; [lia|nia]). }
    assert (DE : d <= eps).
    { clear - S X EE EP D0 R0. destruct S as [-> | ->]; destruct X as [(X1 & X2)|(X1 & X2)]; nia. }
    assert (B : q1 * eps <= w * eps) by (apply Z.mul_le_mono_nonneg_r; lia).
    assert (B2 : w * d <= w * eps) by (apply Z.mul_le_mono_nonneg_l; lia).
    assert (B3 : 0 <= q1 * eps) by (apply Z.mul_nonneg_nonneg; lia).
    assert (B4 : 0 <= w * d) by (apply Z.mul_nonneg_nonneg; lia).
    replace (w * (s * d)) with (s * (w * d)) in EY by ring.
    replace (2 * w * eps) with (2 * (w * eps)) in SMALL by ring.
    set (u := q1 * eps) in *. set (v := w * d) in *. set (X0 := w * eps) in *. clearbody u v X0.
    assert (MY : m * (s * y) <= - m \/ m <= m * (s * y)).
    { clear - S X M. destruct S as [-> | ->]; destruct X as [(X1 & X2)|(X1 & X2)]; nia. }
    destruct S as [-> | ->]; lia.
Qed.

Lemma search_from T k w eps : 0 < w < 2 ^ 64 -> eps = k * 2 ^ 137 - w * T -> 0 < eps < 2 ^ 64 ->
  forall fuel cf s p2 q2 p1 q1 numer denom,
  continued_fraction fuel numer denom = Some cf ->
  s = 1 \/ s = -1 -> 0 <= numer -> 0 <= denom ->
  numer = s * (q2 * T - p2 * 2 ^ 137) -> denom = - s * (q1 * T - p1 * 2 ^ 137) ->
  p1 * q2 - p2 * q1 = s -> 0 <= q1 -> 0 <= q2 -> 0 < q1 + q2 -> (0 < q2 \/ denom <= numer) -> q1 <= w ->
  good T p1 q1 \/ solutions T (convergents_from p2 q2 p1 q1 cf) <> [].
Proof.
  intros W E EP. set (m := 2 ^ 137) in *. assert (M : 0 < m) by reflexivity.
  assert (SMALL : 2 * w * eps < m).
  { unfold m. change (2 ^ 137) with (2 * (2 ^ 64 * 2 ^ 64) * 256). nia. }
  induction fuel as [|fuel IH]; intros cf s p2 q2 p1 q1 numer denom C S HN HD EN ED DET Q1 Q2 Q12 QA QW;
    [discriminate C|].
  cbn [continued_fraction] in C. destruct (Z.eqb_spec denom 0) as [D0|D0].
  - (* the last convergent is T / 2^137 itself *)
    exfalso. subst denom.
    assert (Z0 : q1 * T = p1 * m) by (destruct S as [-> | ->]; lia).
    assert (B : m * (k * q1 - w * p1) = q1 * eps) by (rewrite E; nia).
    assert (q1 * eps <= w * eps) by nia.
    assert (0 < q1).
    { destruct (Z.eq_dec q1 0) as [X|X]; [|lia]. subst q1. assert (p1 = 0) by nia. subst p1.
      destruct S; lia. }
    nia.
  - destruct (continued_fraction fuel denom (numer mod denom)) as [cf'|] eqn:C'; [|discriminate C].
    injection C as <-.
    pose proof (Z.div_mod numer denom D0) as DM. pose proof (Z.mod_pos_bound numer denom ltac:(lia)) as MB.
    pose proof (Z.div_pos numer denom HN ltac:(lia)) as A0.
    set (a := numer / denom) in *. set (r := numer mod denom) in *. clearbody a r.
    cbn [convergents_from]. set (p := a * p1 + p2) in *. set (q := a * q1 + q2) in *.
    assert (QP : 0 < q).
    { unfold q. destruct QA as [QA|QA]; [nia|]. assert (1 <= a) by nia. nia. }
    assert (ER : r = s * (q * T - p * m)).
    { unfold q, p. assert (Hr : r = numer - denom * a) by lia. rewrite Hr, EN, ED. ring. }
    assert (DET' : p * q1 - p1 * q = - s) by (unfold p, q; rewrite <- DET; ring).
    destruct (Z_le_gt_dec q w) as [L|G].
    + right. cbn [solutions]. destruct (Z.leb_spec (2 ^ 64) q) as [X|_]; [lia|].
      destruct (IH cf' (- s) p1 q1 p q denom r) as [Hg|Hs]; try assumption; try lia.
      * pose proof (good_test _ _ _ Hg) as X. apply Z.ltb_lt in X. unfold m in X. rewrite X. discriminate.
      * destruct (_ <? _); [discriminate|exact Hs].
    + left. refine (between (- s) T m p1 q1 p q denom r k w eps (2 ^ 64) _ M Q1 QP DET' _ _ _ _ _ _ E EP SMALL);
        try lia; rewrite ?ED, ?ER; ring.
Qed.

Lemma solutions_tests T : forall l w, In w (solutions T l) ->
  2 ^ 137 - 2 ^ 64 < (T * w) mod 2 ^ 137 /\ w < 2 ^ 64 /\ In w (map snd l).
Proof.
  induction l as [|[p q] l IH]; intros w H; [destruct H|].
  cbn [solutions] in H. destruct (Z.leb_spec (2 ^ 64) q) as [|L]; [destruct H|].
  destruct (Z.ltb_spec (2 ^ 137 - 2 ^ 64) ((T * q) mod 2 ^ 137)) as [G|_].
  - destruct H as [<-|H]; [split; [exact G|split; [exact L|left; reflexivity]]|].
    destruct (IH w H) as (A & B & C). split; [exact A|split; [exact B|right; exact C]].
  - destruct (IH w H) as (A & B & C). split; [exact A|split; [exact B|right; exact C]].
Qed.

Lemma cf_nonneg : forall fuel n d cf, 0 <= n -> 0 <= d -> continued_fraction fuel n d = Some cf ->
  Forall (fun a => 0 <= a) cf.
Proof.
  induction fuel as [|fuel IH]; intros n d cf Hn Hd C; [discriminate C|].
  cbn [continued_fraction] in C. destruct (Z.eqb_spec d 0) as [D0|D0].
  - injection C as <-. constructor.
  - destruct (continued_fraction fuel d (n mod d)) as [cf'|] eqn:C'; [|discriminate C]. injection C as <-.
    pose proof (Z.mod_pos_bound n d ltac:(lia)).
    constructor; [apply Z.div_pos; lia|]. apply (IH d (n mod d)); [lia|lia|exact C'].
Qed.
