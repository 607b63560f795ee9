(** Properties C20, C21 and C14 (probe): integer_times_pow10.
    The statements use only the entry points of the model and SpecFloat. *)
From Verif Require Import Machine Config Format FromChars Rounding ComputeFloat SpecFloat FloatBridge FpArith Clinger Pow10.
From Coq Require Import QArith.
Open Scope Z_scope.

(** A common build: x86-64, gcc, run time, round to nearest. *)
Definition cfg_x86_64 : cfg :=
  {| in_constexpr := false; big_endian := false; is_clang := false; is_32bit := false;
     sparc := false; int128 := true; clz_builtin := true; add_overflow_builtin := true;
     simd := Sse2; eval := Eval0; half_in_float := true; rmode := ToNearest; flush := false;
     macro_leading_plus := false; macro_skip_ws := false; asserts := false |}.

(** C20: for double, float and bfloat16, every unsigned 64-bit mantissa and
    every exponent, the result is the correctly rounded m * 10^e (no bound on
    e; the int range of C++ is included), in every build and rounding mode. *)
Theorem integer_times_pow10_correct :
  forall (c : cfg) (t : ftype) (m e : Z), t <> F16 -> 0 <= m < 2 ^ 64 ->
  exists b, integer_times_pow10_u c t m e = Ok b /\
            nearest_even (format_of t) (decimal m e) b.
Proof.
  intros c t m e N Hm. destruct (pow10_u_core c t m e Hm) as (b & E & R).
  exists b. split; [exact E|].
  eapply nearest_even_comp; [symmetry; apply decimal_dec|].
  apply rounds_nearest_even. apply not_F16_rounds; assumption.
Qed.
Print Assumptions integer_times_pow10_correct.

(** C20, float16: nearest always; ties to even except between subnormals. *)
Theorem integer_times_pow10_float16_partial :
  forall (c : cfg) (m e : Z), 0 <= m < 2 ^ 64 ->
  exists b, integer_times_pow10_u c F16 m e = Ok b /\
            nearest_but_subnormal_ties binary16 (decimal m e) b.
Proof.
  intros c m e Hm. destruct (pow10_u_core c F16 m e Hm) as (b & E & R).
  exists b. split; [exact E|].
  eapply nearest_but_comp; [symmetry; apply decimal_dec|].
  apply (rounds_or_tie_spec F16). exact R.
Qed.
Print Assumptions integer_times_pow10_float16_partial.

(** The missing part is false: 298023223876953125e-25 is exactly half of the
    smallest subnormal; the even neighbour is 0, the library returns 1. *)
Theorem integer_times_pow10_float16_refuted :
  ~ (forall (c : cfg) (m e : Z), 0 <= m < 2 ^ 64 ->
     exists b, integer_times_pow10_u c F16 m e = Ok b /\
               nearest_even binary16 (decimal m e) b).
Proof.
  intros H. destruct (H cfg_x86_64 298023223876953125 (-25) ltac:(vm_compute; split; [discriminate|reflexivity])) as (b & E & [R N]).
  assert (EB : b = 1) by (vm_compute in E; injection E as <-; reflexivity). subst b.
  specialize (N 0 ltac:(split; vm_compute; discriminate)).
  destruct N as [N|[_ [N|N]]]; vm_compute in N; discriminate N.
Qed.
Print Assumptions integer_times_pow10_float16_refuted.

(** C21: the signed overload, all mantissas except INT64_MIN. *)
Theorem integer_times_pow10_signed_partial :
  forall (c : cfg) (t : ftype) (m e : Z), t <> F16 -> - 2 ^ 63 < m < 2 ^ 63 ->
  exists b, integer_times_pow10_s c t m e = Ok (with_sign (format_of t) (m <? 0) b) /\
            nearest_even (format_of t) (decimal (Z.abs m) e) b.
Proof.
  intros c t m e N Hm. destruct (pow10_s_core c t m e Hm) as (b & E & R).
  exists b. split; [exact E|].
  eapply nearest_even_comp; [symmetry; apply decimal_dec|].
  apply rounds_nearest_even. apply not_F16_rounds; assumption.
Qed.
Print Assumptions integer_times_pow10_signed_partial.

(** INT64_MIN: the negation overflows, whatever the exponent, type and build. *)
Theorem integer_times_pow10_signed_refuted :
  forall (c : cfg) (t : ftype) (e : Z), integer_times_pow10_s c t (- 2 ^ 63) e = UB.
Proof. intros. reflexivity. Qed.
Print Assumptions integer_times_pow10_signed_refuted.

(** Overloads for narrower integer types (any value that fits in 64 bits). *)
Theorem integer_times_pow10_other_types :
  forall (c : cfg) (t : ftype) (is_signed : bool) (m e : Z), t <> F16 ->
  (if is_signed then - 2 ^ 63 < m < 2 ^ 63 else 0 <= m < 2 ^ 64) ->
  exists b, integer_times_pow10_any c t is_signed m e = Ok (with_sign (format_of t) (m <? 0) b) /\
            nearest_even (format_of t) (decimal (Z.abs m) e) b.
Proof.
  intros c t sg m e N Hm. unfold integer_times_pow10_any. destruct sg.
  - rewrite WordLemmas.to_signed_small by lia. apply integer_times_pow10_signed_partial; assumption.
  - rewrite WordLemmas.u64_small by exact Hm.
    destruct (Z.ltb_spec m 0); [lia|]. rewrite Z.abs_eq by lia.
    destruct (integer_times_pow10_correct c t m e N Hm) as (b & E & R). exists b.
    rewrite with_sign_false. auto.
Qed.
Print Assumptions integer_times_pow10_other_types.

(** C14: the probe answers true exactly in round-to-nearest mode, when
    FLT_EVAL_METHOD is 0 or 1 (otherwise the fast path that needs it is off). *)
Theorem rounding_probe_exact :
  forall c : cfg, rounds_to_nearest c = true <-> (rmode c = ToNearest /\ (eval c = Eval0 \/ eval c = Eval1)).
Proof. exact rounds_to_nearest_spec. Qed.
Print Assumptions rounding_probe_exact.

(** C14 for integer_times_pow10: two builds or rounding modes never differ. *)
Theorem integer_times_pow10_mode_independent :
  forall (c1 c2 : cfg) (t : ftype) (m e : Z), t <> F16 -> 0 <= m < 2 ^ 64 ->
  integer_times_pow10_u c1 t m e = integer_times_pow10_u c2 t m e.
Proof.
  intros c1 c2 t m e N Hm.
  destruct (integer_times_pow10_correct c1 t m e N Hm) as (b1 & -> & R1).
  destruct (integer_times_pow10_correct c2 t m e N Hm) as (b2 & -> & R2).
  f_equal. eapply nearest_even_unique; eassumption.
Qed.
Print Assumptions integer_times_pow10_mode_independent.

(** Concrete instances: the hypotheses are met by non-trivial arguments. *)
Example pow10_example_hard :
  integer_times_pow10_u cfg_x86_64 F64 9007199254740993 0 = Ok 4845873199050653696.
Proof. vm_compute. reflexivity. Qed.
Example pow10_example_negative :
  integer_times_pow10_s cfg_x86_64 F32 (-15) (-1) = Ok (with_sign binary32 true 1069547520).
Proof. vm_compute. reflexivity. Qed.
Example pow10_example_overflow :
  integer_times_pow10_u cfg_x86_64 BF16 1 40 = Ok (infinity bfloat16).
Proof. vm_compute. reflexivity. Qed.
