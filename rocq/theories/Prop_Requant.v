(** C22: the requantization of the vector kernels against the reference. *)
From Coq Require Import ZArith List Lia.
From Verif Require Import Base Multiplier SpecRound SpecSimd Simd SimdRequant RequantProps.
Import ListNotations.
Open Scope Z_scope.

(** AVX2: each of the eight lanes is rounded to nearest after the multiplication and again after
    the right shift, whatever the accumulators; the left shift is modulo 2^32. *)
Theorem C22_avx2 : forall xs ms es zp, length xs = 8%nat -> length ms = 8%nat -> length es = 8%nat ->
  Forall fixed_point ms -> Forall exponent es -> forall i, (i < 8)%nat ->
  exists r, twice_rounded (nth i xs 0) (nth i ms 0) (nth i es 0) r /\
    nth i (slanes 4 (avx2_apply_multiplier (of_lanes 4 ms) (of_lanes 4 es) zp (of_lanes 4 xs))) 0 = wrap_s 32 (r + zp).
Proof. exact avx2_requantizes. Qed.
Print Assumptions C22_avx2.
Example C22_avx2_nonvacuous : slanes 4 (avx2_apply_multiplier (of_lanes 4 [2 ^ 30; 2 ^ 30; 3; int_max; 0; 2 ^ 30; 2 ^ 30; 2 ^ 30]) (of_lanes 4 [0; -1; 31; -31; 0; 3; -2; -3]) 7
    (of_lanes 4 [-5; 1; 2 ^ 30; int_min; 5; 100; 1001; -1001])) = [5; 8; 7; 6; 7; 407; 132; -55].
Proof. vm_compute. reflexivity. Qed.

(** AVX: the same, with the 256-bit integer operations made of 128-bit ones. *)
Theorem C22_avx : forall xs ms es zp, length xs = 8%nat -> length ms = 8%nat -> length es = 8%nat ->
  Forall fixed_point ms -> Forall exponent es -> forall i, (i < 8)%nat ->
  exists r, twice_rounded (nth i xs 0) (nth i ms 0) (nth i es 0) r /\
    nth i (slanes 4 (avx_apply_multiplier (of_lanes 4 ms) (of_lanes 4 es) zp (of_lanes 4 xs))) 0 = wrap_s 32 (r + zp).
Proof. exact avx_requantizes. Qed.
Print Assumptions C22_avx.
Example C22_avx_nonvacuous : slanes 4 (avx_apply_multiplier (of_lanes 4 [2 ^ 30; 2 ^ 30; 3; int_max; 0; 2 ^ 30; 2 ^ 30; 2 ^ 30]) (of_lanes 4 [0; -1; 31; -31; 0; 3; -2; -3]) 7
    (of_lanes 4 [-5; 1; 2 ^ 30; int_min; 5; 100; 1001; -1001])) = [5; 8; 7; 6; 7; 407; 132; -55].
Proof. vm_compute. reflexivity. Qed.

(** AVX-512, multipliers by row: sixteen lanes. *)
Theorem C22_avx512 : forall xs ms es zp, length xs = 16%nat -> length ms = 16%nat -> length es = 16%nat ->
  Forall fixed_point ms -> Forall exponent es -> forall i, (i < 16)%nat ->
  exists r, twice_rounded (nth i xs 0) (nth i ms 0) (nth i es 0) r /\
    nth i (slanes 4 (avx512_apply_multiplier (of_lanes 4 ms) (of_lanes 4 es) zp (of_lanes 4 xs))) 0 = wrap_s 32 (r + zp).
Proof. exact avx512_requantizes. Qed.
Print Assumptions C22_avx512.
Example C22_avx512_nonvacuous : slanes 4 (avx512_apply_multiplier (set1 4 16 (2 ^ 30)) (of_lanes 4 [0; -1; 1; -2; 2; -3; 3; -4; 4; -5; 5; -6; 6; -7; 7; -31]) 0
    (set1 4 16 101)) = [51; 26; 101; 13; 202; 6; 404; 3; 808; 2; 1616; 1; 3232; 0; 6464; 0].
Proof. vm_compute. reflexivity. Qed.

(** AVX-512, multipliers by column: the sixteen lanes take the multiplier and the exponent of column
    [col]. *)
Theorem C22_avx512_columns : forall xs ms es zp col, length xs = 16%nat -> length ms = 16%nat -> length es = 16%nat ->
  Forall fixed_point ms -> Forall exponent es -> 0 <= col < 16 -> forall i, (i < 16)%nat ->
  exists r, twice_rounded (nth i xs 0) (nth (Z.to_nat col) ms 0) (nth (Z.to_nat col) es 0) r /\
    nth i (slanes 4 (avx512_apply_multiplier_col (of_lanes 4 ms) (of_lanes 4 es) zp col (of_lanes 4 xs))) 0 = wrap_s 32 (r + zp).
Proof. exact avx512_requantizes_columns. Qed.
Print Assumptions C22_avx512_columns.
Example C22_avx512_columns_nonvacuous : slanes 4 (avx512_apply_multiplier_col (set1 4 16 (2 ^ 30)) (of_lanes 4 [0; -1; 1; -2; 2; -3; 3; -4; 4; -5; 5; -6; 6; -7; 7; -31]) 0 9
    (set1 4 16 101)) = repeat 2 16.
Proof. vm_compute. reflexivity. Qed.

(** NEON: rounded to nearest once. *)
Theorem C22_neon : forall xs ms es, length xs = 4%nat -> length ms = 4%nat -> length es = 4%nat ->
  Forall fixed_point ms -> Forall exponent es -> forall i, (i < 4)%nat ->
  rounded_once (nth i xs 0) (nth i ms 0) (nth i es 0) (nth i (neon_apply_multiplier ms es xs) 0).
Proof. exact neon_requantizes. Qed.
Print Assumptions C22_neon.
Example C22_neon_nonvacuous : neon_apply_multiplier [2 ^ 30; 2 ^ 30; 2 ^ 30; 2 ^ 30] [0; -1; 2; -3] [101; 101; -101; -101] = [51; 25; -202; -6].
Proof. vm_compute. reflexivity. Qed.

Theorem C22_neon_columns : forall xs ms es col, length xs = 4%nat -> length ms = 4%nat -> length es = 4%nat ->
  Forall fixed_point ms -> Forall exponent es -> (col < 4)%nat -> forall i, (i < 4)%nat ->
  rounded_once (nth i xs 0) (nth col ms 0) (nth col es 0) (nth i (neon_apply_multiplier_col ms es col xs) 0).
Proof. exact neon_requantizes_columns. Qed.
Print Assumptions C22_neon_columns.
Example C22_neon_columns_nonvacuous : neon_apply_multiplier_col [2 ^ 30; 2 ^ 30; 2 ^ 30; 2 ^ 30] [0; -1; 2; -3] 1 [101; 102; -101; -102] = [25; 26; -25; -25].
Proof. vm_compute. reflexivity. Qed.

(** The x86 sequences give the reference result for a left shift that does not overflow. *)
Theorem C22_x86_left_partial : forall dbg x m e r, is_i32 x -> fixed_point m -> 0 <= e <= 30 -> is_i32 (x * 2 ^ e) ->
  twice_rounded x m e r -> multiply_by_quantized_multiplier dbg x m e = Ok r.
Proof. exact x86_left_exact. Qed.
Print Assumptions C22_x86_left_partial.
Example C22_x86_left_partial_nonvacuous : twice_rounded 101 (2 ^ 30) 3 404 /\ multiply_by_quantized_multiplier true 101 (2 ^ 30) 3 = Ok 404.
Proof. unfold twice_rounded, nearest_ties_up. split; [exists 404; vm_compute; repeat split; intro; discriminate | reflexivity]. Qed.

(** For a right shift they give it or one more: one more exactly when the product is less than a tie by at
    most 2^30. *)
Theorem C22_x86_right : forall dbg x m k r, is_i32 x -> fixed_point m -> 1 <= k <= 31 -> twice_rounded x m (- k) r ->
  exists r0, multiply_by_quantized_multiplier dbg x m (- k) = Ok r0 /\
    (2 ^ (30 + k) - 2 ^ 30 <= (x * m) mod 2 ^ (31 + k) < 2 ^ (30 + k) -> r = r0 + 1) /\
    (~ 2 ^ (30 + k) - 2 ^ 30 <= (x * m) mod 2 ^ (31 + k) < 2 ^ (30 + k) -> r = r0).
Proof. exact x86_right_step. Qed.
Print Assumptions C22_x86_right.
Example C22_x86_right_nonvacuous : twice_rounded 1 (2 ^ 30) (- 1) 1 /\ twice_rounded 7 (2 ^ 30) (- 1) 2 /\
  multiply_by_quantized_multiplier true 1 (2 ^ 30) (- 1) = Ok 0 /\ multiply_by_quantized_multiplier true 7 (2 ^ 30) (- 1) = Ok 2.
Proof. unfold twice_rounded, nearest_ties_up. split; [|split; [|split]]; [exists 1; vm_compute; repeat split; intro; discriminate | exists 4; vm_compute; repeat split; intro; discriminate | reflexivity | reflexivity]. Qed.

(** The NEON sequence gives the reference result if the accumulator, shifted left by one more than the exponent (if that is
    not negative), is an int32. *)
Theorem C22_neon_partial : forall dbg x m e r, is_i32 x -> fixed_point m -> -31 <= e <= 30 -> is_i32 (x * 2 ^ Z.max (e + 1) 0) ->
  rounded_once x m e r -> multiply_by_quantized_multiplier dbg x m e = Ok r.
Proof. exact neon_exact. Qed.
Print Assumptions C22_neon_partial.
Example C22_neon_partial_nonvacuous : rounded_once 101 (2 ^ 30) (- 1) 25 /\ multiply_by_quantized_multiplier true 101 (2 ^ 30) (- 1) = Ok 25 /\
  is_i32 (101 * 2 ^ Z.max (- 1 + 1) 0) /\ rounded_once (-1) (2 ^ 30) 4 (-8) /\ is_i32 (-1 * 2 ^ Z.max (4 + 1) 0).
Proof. unfold rounded_once, nearest_ties_up, is_i32, int_min, int_max. vm_compute. repeat split; intro; discriminate. Qed.

(** So the claim is false of the x86 sequences: one more than the reference in all lanes. *)
Theorem C22_x86_same_result_refuted : exists x m e r0,
  is_i32 x /\ fixed_point m /\ exponent e /\ multiply_by_quantized_multiplier true x m e = Ok r0 /\
  slanes 4 (avx2_apply_multiplier (set1 4 8 m) (set1 4 8 e) 0 (set1 4 8 x)) = repeat (r0 + 1) 8 /\
  slanes 4 (avx_apply_multiplier (set1 4 8 m) (set1 4 8 e) 0 (set1 4 8 x)) = repeat (r0 + 1) 8 /\
  slanes 4 (avx512_apply_multiplier (set1 4 16 m) (set1 4 16 e) 0 (set1 4 16 x)) = repeat (r0 + 1) 16 /\
  slanes 4 (avx512_apply_multiplier_col (set1 4 16 m) (set1 4 16 e) 0 5 (set1 4 16 x)) = repeat (r0 + 1) 16.
Proof. exact avx2_same_result_refuted. Qed.
Print Assumptions C22_x86_same_result_refuted.

(** And of the NEON sequence: with exponent 0 it changes the sign of accumulators from 2^30, which leave int32 when they are
    shifted left by one. *)
Theorem C22_neon_same_result_refuted : exists x m e r0,
  is_i32 x /\ fixed_point m /\ e = 0 /\ multiply_by_quantized_multiplier true x m e = Ok r0 /\ 0 < r0 /\
  neon_apply_multiplier (repeat m 4) (repeat e 4) (repeat x 4) = repeat (- r0) 4 /\
  neon_apply_multiplier_col (repeat m 4) (repeat e 4) 2 (repeat x 4) = repeat (- r0) 4.
Proof. exact neon_same_result_refuted. Qed.
Print Assumptions C22_neon_same_result_refuted.

(** A left shift that overflows changes the sign on x86 too, although the reference result is an int32. *)
Theorem C22_left_shift_refuted : exists x m e r0,
  is_i32 x /\ fixed_point m /\ exponent e /\ multiply_by_quantized_multiplier true x m e = Ok r0 /\ 0 < r0 /\
  slanes 4 (avx2_apply_multiplier (set1 4 8 m) (set1 4 8 e) 0 (set1 4 8 x)) = repeat (- r0) 8 /\
  slanes 4 (avx_apply_multiplier (set1 4 8 m) (set1 4 8 e) 0 (set1 4 8 x)) = repeat (- r0) 8 /\
  slanes 4 (avx512_apply_multiplier (set1 4 16 m) (set1 4 16 e) 0 (set1 4 16 x)) = repeat (- r0) 16.
Proof. exact left_overflow_refuted. Qed.
Print Assumptions C22_left_shift_refuted.
