(** What one lane of the requantization of the vector kernels computes. *)
From Coq Require Import ZArith.
From Verif Require Import Base SpecRound.
Open Scope Z_scope.

(** The accumulator [x] shifted left by the positive part of the exponent, in 32 bits. *)
Definition shifted_left (x e : Z) : Z := wrap_s 32 (x * 2 ^ Z.max e 0).

(** x86: rounded to nearest after the multiplication and again after the right shift. *)
Definition twice_rounded (x m e r : Z) : Prop :=
  exists p, nearest_ties_up (shifted_left x e * m) (2 ^ 31) p /\ nearest_ties_up p (2 ^ Z.max (- e) 0) r.

(** NEON: the accumulator is shifted left by one more than the exponent if that is not negative, in 32 bits, multiplied
    and shifted right by at least one; rounded to nearest once. *)
Definition neon_shifted (x e : Z) : Z := wrap_s 32 (x * 2 ^ Z.max (e + 1) 0).
Definition rounded_once (x m e r : Z) : Prop := nearest_ties_up (neon_shifted x e * m) (2 ^ (31 + Z.max (- e) 1)) r.

(** Fixed-point multipliers and exponents. *)
Definition fixed_point (m : Z) : Prop := 0 <= m <= int_max.
Definition exponent (e : Z) : Prop := -31 <= e <= 31.
