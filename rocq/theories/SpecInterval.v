(** Specification: the interval of real numbers that round to a given number.
    Self-contained apart from SpecFloat. *)
From Coq Require Import ZArith QArith.
From Verif Require Import SpecFloat.
Open Scope Z_scope.

(** [x] lies in the interval around the number with code [b] that is bounded by
    the points half-way to its two neighbours.  [up k] says that the point
    half-way between the codes [k - 1] and [k] belongs to [k]; otherwise it
    belongs to [k - 1].  Zero has no lower bound and infinity no upper one. *)
Definition rounding_interval (f : format) (up : Z -> Prop) (x : Q) (b : Z) : Prop :=
  (0 < b ->
     Qlt (magnitude f (b - 1) + magnitude f b) (2 * x) \/
     (Qeq (magnitude f (b - 1) + magnitude f b) (2 * x) /\ up b)) /\
  (b < infinity f ->
     Qlt (2 * x) (magnitude f b + magnitude f (b + 1)) \/
     (Qeq (2 * x) (magnitude f b + magnitude f (b + 1)) /\ ~ up (b + 1))).

(** Ties to even. *)
Definition ties_even (k : Z) : Prop := Z.even k = true.

(** Ties to even, except that those between subnormal numbers go up. *)
Definition subnormal_ties_up (f : format) (k : Z) : Prop := Z.even k = true \/ k <= 2 ^ frac_bits f.

(** The same, but the exception only applies if the value [x] has at most 19
    significant digits. *)
Definition short_subnormal_ties_up (f : format) (x : Q) (k : Z) : Prop :=
  Z.even k = true \/ (k <= 2 ^ frac_bits f /\ nineteen_digits x).
