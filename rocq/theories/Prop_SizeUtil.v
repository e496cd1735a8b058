(** C42: power-of-two arithmetic helpers. *)
From Verif Require Import Base SizeUtil SpecArith SizeUtilProps.

(** floor_log2 on a signed type of [w] bits, for every positive value. *)
Theorem C42_floor_log2 : forall dbg w n, 0 < w -> 1 <= n <= 2 ^ (w - 1) - 1 ->
  exists k, floor_log2 dbg w n = Ok k /\ is_floor_log2 n k.
Proof. exact floor_log2_meets_spec. Qed.
Print Assumptions C42_floor_log2.
Example C42_floor_log2_nonvacuous : floor_log2 true 32 1000 = Ok 9 /\ floor_log2 true 64 (2 ^ 62 + 1) = Ok 62.
Proof. vm_compute. auto. Qed.

Theorem C42_ceil_log2 : forall dbg w n, 0 < w -> 1 <= n <= 2 ^ (w - 1) - 1 ->
  exists k, ceil_log2 dbg w n = Ok k /\ is_ceil_log2 n k.
Proof. exact ceil_log2_meets_spec. Qed.
Print Assumptions C42_ceil_log2.
Example C42_ceil_log2_nonvacuous : ceil_log2 true 32 1000 = Ok 10 /\ ceil_log2 true 32 1024 = Ok 10.
Proof. vm_compute. auto. Qed.

Theorem C42_is_pot : forall n, is_pot n = true <-> power_of_two n.
Proof. exact is_pot_meets_spec. Qed.
Print Assumptions C42_is_pot.
Example C42_is_pot_nonvacuous : is_pot 64 = true /\ is_pot 48 = false /\ is_pot 0 = false.
Proof. vm_compute. auto. Qed.

Theorem C42_pot_log2 : forall dbg w n, 1 <= n <= 2 ^ (w - 1) - 1 -> power_of_two n ->
  exists k, pot_log2 dbg w n = Ok k /\ n = 2 ^ k.
Proof. exact pot_log2_meets_spec. Qed.
Print Assumptions C42_pot_log2.
Example C42_pot_log2_nonvacuous : pot_log2 true 32 64 = Ok 6 /\ pot_log2 true 32 65 = Abort.
Proof. vm_compute. auto. Qed.

Theorem C42_round_down_pot : forall dbg v m, power_of_two m ->
  exists r, round_down_pot dbg v m = Ok r /\ is_round_down v m r.
Proof. exact round_down_pot_meets_spec. Qed.
Print Assumptions C42_round_down_pot.
Example C42_round_down_pot_nonvacuous : round_down_pot true 77 16 = Ok 64.
Proof. reflexivity. Qed.

Theorem C42_round_up_pot : forall dbg w v m, 0 < w -> power_of_two m -> 0 <= v ->
  v + m <= 2 ^ (w - 1) - 1 ->
  exists r, round_up_pot dbg w v m = Ok r /\ is_round_up v m r.
Proof. exact round_up_pot_meets_spec. Qed.
Print Assumptions C42_round_up_pot.
Example C42_round_up_pot_nonvacuous : round_up_pot true 32 77 16 = Ok 80 /\ round_up_pot true 32 80 16 = Ok 80.
Proof. vm_compute. auto. Qed.

(** One-argument round_down_pot: the largest power of two not above [n]. *)
Theorem C42_round_down_pot1 : forall dbg w n, 0 < w -> 1 <= n <= 2 ^ (w - 1) - 1 ->
  exists r, round_down_pot1 dbg w n = Ok r /\ power_of_two r /\
            forall p, power_of_two p -> p <= n -> p <= r.
Proof. exact round_down_pot1_meets_spec. Qed.
Print Assumptions C42_round_down_pot1.
Example C42_round_down_pot1_nonvacuous : round_down_pot1 true 32 1000 = Ok 512.
Proof. reflexivity. Qed.

(** One-argument round_up_pot: the smallest power of two not below [n]. *)
Theorem C42_round_up_pot1 : forall dbg w n, 2 < w -> 1 <= n <= 2 ^ (w - 2) ->
  exists r, round_up_pot1 dbg w n = Ok r /\ power_of_two r /\ n <= r /\
            forall p, power_of_two p -> n <= p -> r <= p.
Proof. exact round_up_pot1_meets_spec. Qed.
Print Assumptions C42_round_up_pot1.
Example C42_round_up_pot1_nonvacuous : round_up_pot1 true 32 1000 = Ok 1024.
Proof. reflexivity. Qed.

(** Above 2^(w-2) the smallest power of two is not representable: undefined behaviour. *)
Theorem C42_round_up_pot1_domain_is_exact : forall dbg w n, 2 < w ->
  2 ^ (w - 2) < n <= 2 ^ (w - 1) - 1 -> round_up_pot1 dbg w n = UB.
Proof. exact round_up_pot1_domain. Qed.
Print Assumptions C42_round_up_pot1_domain_is_exact.
Example C42_round_up_pot1_domain_nonvacuous : round_up_pot1 true 32 (2 ^ 30 + 1) = UB.
Proof. reflexivity. Qed.
