(** Specification vocabulary for rounding and clamping. *)
From Verif Require Import Base.

Definition is_i32 (z : Z) : Prop := int_min <= z <= int_max.

(** [r] is the integer nearest to the fraction [n / d] ([d > 0]), ties upward:
    r - 1/2 <= n/d < r + 1/2. *)
Definition nearest_ties_up (n d r : Z) : Prop := d * (2 * r - 1) <= 2 * n < d * (2 * r + 1).

(** [v] is [a] clamped to [lo, hi]; the lower bound wins if the bounds cross. *)
Definition clamped (lo hi a v : Z) : Prop :=
  (v = a /\ lo <= a <= hi) \/ (v = lo /\ (a < lo \/ hi < lo)) \/ (v = hi /\ lo <= hi < a).
