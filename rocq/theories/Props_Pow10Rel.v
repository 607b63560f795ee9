(** Property C47: integer_times_pow10 is a function of the product alone,
    monotone and odd. *)
From Verif Require Import Machine Config Chars Format ParseNumber DecToBin FromChars WordLemmas
  Rounding ComputeFloat SpecFloat FloatBridge Clinger Pow10 ManyDigits Saturate FloatApi FloatRel Props_Pow10.
From Coq Require Import QArith Qabs Lqa.
Open Scope Z_scope.

Lemma cf_nearest t x b : cf_rounds t x b -> nearest (format_of t) x b.
Proof.
  intros H. apply rounds_or_tie_spec. destruct H as [H|[_ H]]; [right|left]; exact H.
Qed.

Lemma cf_unique t x b1 b2 : cf_rounds t x b1 -> cf_rounds t x b2 -> b1 = b2.
Proof.
  intros [T1|[N1 R1]] [T2|[N2 R2]].
  - eapply sub_tie_unique; eassumption.
  - destruct (N2 _ T1).
  - destruct (N1 _ T2).
  - apply (near_unique t x); apply near_intro; assumption.
Qed.

Lemma cf_comp t x y b : (x == y)%Q -> cf_rounds t x b -> cf_rounds t y b.
Proof.
  intros E. assert (ST : forall b, sub_tie t x b <-> sub_tie t y b).
  { intros b'. unfold sub_tie. assert (U : (units t x == units t y)%Q) by (unfold units; rewrite E; reflexivity).
    rewrite U. reflexivity. }
  intros [T|[N R]]; [left; apply ST; exact T|right]. split.
  - intros b' T. apply (N b'), ST, T.
  - eapply SlowPath.rounds_comp; eassumption.
Qed.

Lemma cf_mono t x y a b : (x <= y)%Q -> cf_rounds t x a -> cf_rounds t y b -> a <= b.
Proof.
  intros L NA NB. destruct (Qle_lt_or_eq _ _ L) as [LT|EQ].
  - destruct (Z_le_gt_dec a b) as [G|G]; [exact G|exfalso].
    destruct (cf_nearest t x a NA) as (RA & HA). destruct (cf_nearest t y b NB) as (RB & HB).
    pose proof (magnitude_lt t b a ltac:(lia)) as M.
    pose proof (closer_high _ _ _ M (HA b RB)) as C1. pose proof (closer_low _ _ _ M (HB a RA)) as C2. lra.
  - assert (a = b); [|lia]. apply (cf_unique t y); [eapply cf_comp; [exact EQ|exact NA]|exact NB].
Qed.

(** C47: only the product counts, however it is split into mantissa and
    exponent, on every build and in every rounding mode, for all four types. *)
Theorem integer_times_pow10_product :
  forall (c c' : cfg) (t : ftype) (m e m' e' : Z), 0 <= m < 2 ^ 64 -> 0 <= m' < 2 ^ 64 ->
    (decimal m e == decimal m' e')%Q ->
    integer_times_pow10_u c t m e = integer_times_pow10_u c' t m' e'.
Proof.
  intros c c' t m e m' e' Hm Hm' E.
  destruct (pow10_u_exact c t m e Hm) as (b & -> & R). destruct (pow10_u_exact c' t m' e' Hm') as (b' & -> & R').
  f_equal. rewrite !decimal_dec in E. eapply cf_unique; [eapply cf_comp; [exact E|exact R]|exact R'].
Qed.
Print Assumptions integer_times_pow10_product.

(** C47: a larger product never gives a smaller result. *)
Theorem integer_times_pow10_monotone :
  forall (c c' : cfg) (t : ftype) (m e m' e' : Z), 0 <= m < 2 ^ 64 -> 0 <= m' < 2 ^ 64 ->
    (decimal m e <= decimal m' e')%Q ->
    exists b b', integer_times_pow10_u c t m e = Ok b /\ integer_times_pow10_u c' t m' e' = Ok b' /\
      0 <= b <= infinity (format_of t) /\ 0 <= b' <= infinity (format_of t) /\
      (magnitude (format_of t) b <= magnitude (format_of t) b')%Q.
Proof.
  intros c c' t m e m' e' Hm Hm' E.
  destruct (pow10_u_exact c t m e Hm) as (b & EB & R). destruct (pow10_u_exact c' t m' e' Hm') as (b' & EB' & R').
  exists b, b'. split; [exact EB|]. split; [exact EB'|]. rewrite !decimal_dec in E.
  pose proof (proj1 (cf_nearest _ _ _ R)) as B. pose proof (proj1 (cf_nearest _ _ _ R')) as B'.
  split; [exact B|]. split; [exact B'|]. apply magnitude_le. split; [lia|].
  eapply cf_mono; [exact E|exact R|exact R'].
Qed.
Print Assumptions integer_times_pow10_monotone.

(** C47: a product that is a finite floating-point number is returned unchanged. *)
Theorem integer_times_pow10_representable :
  forall (c : cfg) (t : ftype) (m e b : Z), 0 <= m < 2 ^ 64 ->
    0 <= b < infinity (format_of t) -> (decimal m e == magnitude (format_of t) b)%Q ->
    integer_times_pow10_u c t m e = Ok b.
Proof.
  intros c t m e b Hm Hb E. destruct (pow10_u_exact c t m e Hm) as (a & -> & R). f_equal.
  rewrite decimal_dec in E. destruct (cf_nearest _ _ _ R) as (RA & NE). specialize (NE b ltac:(lia)).
  rewrite E in NE. set (f := format_of t) in *.
  assert (Z0 : (Qabs (magnitude f b - magnitude f b) == 0)%Q).
  { assert (X : (magnitude f b - magnitude f b == 0)%Q) by lra. rewrite X. reflexivity. }
  rewrite Z0 in NE. clear Z0. revert NE.
  destruct (Z_lt_le_dec a b) as [L|L]; [|destruct (Z_lt_le_dec b a) as [L2|L2]; [|lia]]; intros NE; exfalso; unfold f in *.
  - pose proof (magnitude_lt t a b ltac:(lia)) as M. revert NE. apply Qabs_case; intros; lra.
  - pose proof (magnitude_lt t b a ltac:(lia)) as M. revert NE. apply Qabs_case; intros; lra.
Qed.
Print Assumptions integer_times_pow10_representable.

(** C47: the signed overload is the unsigned one with the sign added. *)
Theorem integer_times_pow10_odd :
  forall (c : cfg) (t : ftype) (m e : Z), - 2 ^ 63 < m < 2 ^ 63 ->
    exists b, integer_times_pow10_u c t (Z.abs m) e = Ok b /\ 0 <= b <= infinity (format_of t) /\
      integer_times_pow10_s c t m e = Ok (with_sign (format_of t) (m <? 0) b).
Proof.
  intros c t m e Hm.
  assert (AB : 0 <= Z.abs m < 2 ^ 64) by (change (2 ^ 64) with (2 * 2 ^ 63); lia).
  destruct (pow10_u_exact c t (Z.abs m) e AB) as (b & EB & R). exists b. split; [exact EB|].
  split; [exact (proj1 (cf_nearest _ _ _ R))|].
  unfold integer_times_pow10_s.
  assert (E : (if m <? 0 then chk 64 (- m) else Ok m) = Ok (Z.abs m)).
  { destruct (Z.ltb_spec m 0).
    - rewrite chk64_Ok by (change (2 ^ 63) with 9223372036854775808 in *; lia). f_equal; lia.
    - f_equal; lia. }
  rewrite E. cbn [bind]. rewrite u64_small by exact AB.
  destruct (clinger_spec c t (Z.abs m) e (m <? 0) ltac:(lia)) as [->|(a & EC & Ha)]; cbn [bind].
  - destruct (compute_float_exact c t e (Z.abs m) AB) as (am & -> & OK & R' & _). cbn [bind].
    rewrite (to_float_spec t _ am OK). do 2 f_equal. eapply cf_unique; eassumption.
  - rewrite EC. cbn [bind]. do 2 f_equal. eapply cf_unique; [|exact R]. right.
    split; [eapply clinger_no_tie; [|exact EC]; lia|exact Ha].
Qed.
Print Assumptions integer_times_pow10_odd.

(** 123456789e3 = 123456789000e0 = 1234567890000e-1; 2^60 comes back exactly. *)
Example pow10_relations_example :
  (decimal 123456789 3 == decimal 1234567890000 (-1))%Q /\
      integer_times_pow10_u cfg_x86_64 F64 123456789 3 = Ok 0x423CBE991A080000 /\
      integer_times_pow10_u cfg_x86_64 F64 1234567890000 (-1) = Ok 0x423CBE991A080000 /\
      (decimal (2 ^ 60) 0 == magnitude (format_of F32) 0x5D800000)%Q /\
      integer_times_pow10_u cfg_x86_64 F32 (2 ^ 60) 0 = Ok 0x5D800000 /\
      integer_times_pow10_s cfg_x86_64 F32 (- 2 ^ 60) 0 = Ok 0xDD800000.
Proof. repeat split; vm_compute; reflexivity. Qed.
