(** Specification vocabulary for integer helpers: what "floor of log2", "round
    up to a multiple" etc. mean, independently of the code. *)
From Coq Require Import ZArith.
Open Scope Z_scope.

(** [k] is the largest exponent with 2^k <= n. *)
Definition is_floor_log2 (n k : Z) : Prop := 0 <= k /\ 2 ^ k <= n < 2 ^ (k + 1).

(** [k] is the smallest non-negative exponent with n <= 2^k. *)
Definition is_ceil_log2 (n k : Z) : Prop :=
  0 <= k /\ n <= 2 ^ k /\ forall j, 0 <= j -> n <= 2 ^ j -> k <= j.

(** [n] is a power of two. *)
Definition power_of_two (n : Z) : Prop := exists k, 0 <= k /\ n = 2 ^ k.

(** [r] is the largest multiple of [m] not above [v]. *)
Definition is_round_down (v m r : Z) : Prop := (m | r) /\ r <= v < r + m.

(** [r] is the smallest multiple of [m] not below [v]. *)
Definition is_round_up (v m r : Z) : Prop := (m | r) /\ r - m < v <= r.
