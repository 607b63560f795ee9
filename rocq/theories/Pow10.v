(** integer_times_pow10: correctness lemmas. *)
From Verif Require Import Machine Config Chars Format ParseNumber DecToBin FromChars WordLemmas Rounding ComputeFloat
  SpecFloat FloatBridge FpArith Clinger.
From Coq Require Import QArith Lqa.
Open Scope Z_scope.

Lemma nearest_even_comp f x x' b : (x == x')%Q -> nearest_even f x b -> nearest_even f x' b.
Proof.
  intros E [R H]. split; [exact R|]. intros b' Hb'. rewrite <- E. exact (H b' Hb').
Qed.
Lemma nearest_comp f x x' b : (x == x')%Q -> nearest f x b -> nearest f x' b.
Proof.
  intros E [R H]. split; [exact R|]. intros b' Hb'. rewrite <- E. exact (H b' Hb').
Qed.
Lemma nearest_but_comp f x x' b : (x == x')%Q ->
  nearest_but_subnormal_ties f x b -> nearest_but_subnormal_ties f x' b.
Proof.
  intros E [N H]. split; [eapply nearest_comp; eassumption|].
  destruct H as [H|[R H]]; [left; eapply nearest_even_comp; eassumption|right].
  split; [exact R|]. rewrite <- E. exact H.
Qed.

Lemma pow10_core c t m e neg : 0 <= m < 2 ^ 64 ->
  exists b,
    (let* cl := clinger_fast_path_impl c t m e neg in
     match cl with
     | Some v => Ok v
     | None => let* am := compute_float c t e m in to_float t neg am
     end) = Ok (with_sign (format_of t) neg b) /\
    (rounds t (dec m e) b \/ sub_tie t (dec m e) b).
Proof.
  intros Hm. destruct (clinger_spec c t m e neg ltac:(lia)) as [->|(b & -> & Hb)]; cbn [bind].
  - destruct (compute_float_spec c t e m Hm) as (am & -> & OK & R). cbn [bind].
    exists (am_code t am). split; [apply to_float_spec; exact OK|exact R].
  - exists b. split; [reflexivity|left; exact Hb].
Qed.

Lemma not_F16_rounds t x b : t <> F16 -> rounds t x b \/ sub_tie t x b -> rounds t x b.
Proof. intros N [H|[H _]]; [exact H|contradiction]. Qed.

Lemma with_sign_false f b : with_sign f false b = b.
Proof. unfold with_sign. lia. Qed.

Lemma pow10_u_core c t m e : 0 <= m < 2 ^ 64 ->
  exists b, integer_times_pow10_u c t m e = Ok b /\
    (rounds t (dec m e) b \/ sub_tie t (dec m e) b).
Proof.
  intros Hm. destruct (pow10_core c t m e false Hm) as (b & E & R).
  exists b. split; [|exact R]. rewrite with_sign_false in E. exact E.
Qed.

Lemma pow10_s_core c t m e : - 2 ^ 63 < m < 2 ^ 63 ->
  exists b, integer_times_pow10_s c t m e = Ok (with_sign (format_of t) (m <? 0) b) /\
    (rounds t (dec (Z.abs m) e) b \/ sub_tie t (dec (Z.abs m) e) b).
Proof.
  intros Hm. unfold integer_times_pow10_s.
  assert (E : (if m <? 0 then chk 64 (- m) else Ok m) = Ok (Z.abs m)).
  { destruct (Z.ltb_spec m 0).
    - rewrite chk64_Ok by (change (2 ^ 63) with 9223372036854775808 in *; lia). f_equal; lia.
    - f_equal; lia. }
  rewrite E. cbn [bind]. rewrite u64_small by lia.
  apply pow10_core. lia.
Qed.
