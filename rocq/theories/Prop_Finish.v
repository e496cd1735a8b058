(** C21, C23, C24: quantized multiplication, clamping, default parameters. *)
From Coq Require Import SpecFloat.
From Verif Require Import Base SidePair Scalars Multiplier IntOps FloatOps MulParams Pack Kernel SpecRound SpecFinish FinishProps.

(** For every int32 accumulator and multiplier and every exponent in [-31, 30]:
    defined; the nearest integer, ties upward, if it is an int32; otherwise a
    debug build aborts and a release build returns it modulo 2^32. *)
Theorem C21_rounds_to_nearest : forall dbg x m shift, is_i32 x -> is_i32 m -> -31 <= shift <= 30 ->
  exists r, nearest_ties_up (x * m) (2 ^ (31 - shift)) r /\
    (is_i32 r -> multiply_by_quantized_multiplier dbg x m shift = Ok r) /\
    (~ is_i32 r -> multiply_by_quantized_multiplier dbg x m shift = if dbg then Abort else Ok (wrap_s 32 r)).
Proof. exact multiply_rounds. Qed.
Print Assumptions C21_rounds_to_nearest.
Example C21_rounds_to_nearest_nonvacuous :
  multiply_by_quantized_multiplier true 5 (2 ^ 30) 0 = Ok 3 /\
  multiply_by_quantized_multiplier true (-5) (2 ^ 30) 0 = Ok (-2) /\
  multiply_by_quantized_multiplier true 1000 (2 ^ 30) (-31) = Ok 0.
Proof. vm_compute. auto. Qed.

(** The nearest integer is unique, so the previous theorem determines the result. *)
Theorem C21_nearest_unique : forall n d r r', 0 < d -> nearest_ties_up n d r -> nearest_ties_up n d r' -> r = r'.
Proof. exact nearest_unique. Qed.
Print Assumptions C21_nearest_unique.
Example C21_nearest_unique_nonvacuous : nearest_ties_up 5 2 3 /\ ~ nearest_ties_up 5 2 2.
Proof. unfold nearest_ties_up. lia. Qed.

Theorem C21_monotone : forall dbg x y m shift rx ry, is_i32 x -> is_i32 y -> 0 <= m <= int_max ->
  -31 <= shift <= 30 -> x <= y ->
  nearest_ties_up (x * m) (2 ^ (31 - shift)) rx -> nearest_ties_up (y * m) (2 ^ (31 - shift)) ry ->
  is_i32 rx -> is_i32 ry ->
  rx <= ry /\ multiply_by_quantized_multiplier dbg x m shift = Ok rx /\
  multiply_by_quantized_multiplier dbg y m shift = Ok ry.
Proof. exact multiply_monotone. Qed.
Print Assumptions C21_monotone.
Example C21_monotone_nonvacuous : nearest_ties_up (7 * 2 ^ 30) (2 ^ (31 - 0)) 4 /\ is_i32 7 /\ is_i32 4.
Proof. unfold nearest_ties_up, is_i32, int_min, int_max. lia. Qed.

(** No overflow for a non-negative multiplier and exponent <= 0, or when
    |x| 2^exponent is an int32. *)
Theorem C21_in_range : forall x m shift r, is_i32 x -> 0 <= m <= int_max -> -31 <= shift <= 30 ->
  (shift <= 0 \/ Z.abs x * 2 ^ shift <= int_max) ->
  nearest_ties_up (x * m) (2 ^ (31 - shift)) r -> is_i32 r.
Proof. exact multiply_in_range. Qed.
Print Assumptions C21_in_range.
Example C21_in_range_nonvacuous : Z.abs (-100000) * 2 ^ 7 <= int_max /\
  multiply_by_quantized_multiplier true (-100000) int_max 7 = Ok (-12800000).
Proof. vm_compute. split; [discriminate|reflexivity]. Qed.

(** The documented exponent range -31..+7 is not sufficient. *)
Theorem C21_documented_range_refuted : exists x m shift, is_i32 x /\ 0 <= m <= int_max /\ -31 <= shift <= 7 /\
  multiply_by_quantized_multiplier true x m shift = Abort /\
  exists r, multiply_by_quantized_multiplier false x m shift = Ok r /\
    ~ nearest_ties_up (x * m) (2 ^ (31 - shift)) r.
Proof. exact documented_shift_overflows. Qed.
Print Assumptions C21_documented_range_refuted.

(** Outside [-31, 30]: undefined above, abort below. *)
Theorem C21_exponent_too_large : forall dbg x m shift, 31 <= shift <= int_max ->
  multiply_by_quantized_multiplier dbg x m shift = UB.
Proof. exact multiply_shift_too_large. Qed.
Print Assumptions C21_exponent_too_large.
Example C21_exponent_too_large_nonvacuous : multiply_by_quantized_multiplier true 1 1 31 = UB.
Proof. reflexivity. Qed.

Theorem C21_exponent_too_small : forall dbg x m shift, shift < -31 ->
  multiply_by_quantized_multiplier dbg x m shift = Abort.
Proof. exact multiply_shift_too_small. Qed.
Print Assumptions C21_exponent_too_small.
Example C21_exponent_too_small_nonvacuous : multiply_by_quantized_multiplier false 1 1 (-32) = Abort.
Proof. reflexivity. Qed.

(** The stored value is the accumulator scaled by the multiplier of the channel, plus
    the zero point, clamped; no wrap-around in the conversion to the destination type. (A scaled
    accumulator beyond int32, possible in release builds only, is taken modulo 2^32.) *)
Theorem C23_stored_value : forall ar dbg st pt dt, 0 < it_bits dt -> forall mp dzp c acc v,
  it_lo dt <= mp_min mp <= it_hi dt -> it_lo dt <= mp_max mp <= it_hi dt ->
  is_i32 acc -> valid_multiplier dt mp c -> finish (int_ops ar dbg st pt dt) mp dzp c acc = Ok v ->
  exists s a, scaled_for dt mp c acc s /\ ar (wrap_s 32 s + dzp) = Ok a /\ clamped (mp_min mp) (mp_max mp) a v.
Proof. exact finish_stores. Qed.
Print Assumptions C23_stored_value.

Theorem C23_clamped_bounds : forall lo hi a v, clamped lo hi a v ->
  (lo <= hi -> lo <= v <= hi) /\ (hi < lo -> v = lo) /\ (lo <= a <= hi -> v = a).
Proof. exact clamped_bounds. Qed.
Print Assumptions C23_clamped_bounds.

(** Every entry the kernel or the reference stores is within the bounds. *)
Theorem C23_kernel_entry : forall ar dbg st pt dt, 0 < it_bits dt -> forall lp rp mp dzp i j v,
  it_lo dt <= mp_min mp <= it_hi dt -> it_lo dt <= mp_max mp <= it_hi dt ->
  kernel_entry dbg (int_ops ar dbg st pt dt) lp rp mp dzp i j = Ok v ->
  (mp_min mp <= mp_max mp -> mp_min mp <= v <= mp_max mp) /\ (mp_max mp < mp_min mp -> v = mp_min mp).
Proof. exact entry_clamps. Qed.
Print Assumptions C23_kernel_entry.

Theorem C23_reference_entry : forall ar dbg st pt dt, 0 < it_bits dt -> forall l r mp dzp i j v,
  it_lo dt <= mp_min mp <= it_hi dt -> it_lo dt <= mp_max mp <= it_hi dt ->
  ref_entry (int_ops ar dbg st pt dt) l r mp dzp i j = Ok v ->
  (mp_min mp <= mp_max mp -> mp_min mp <= v <= mp_max mp) /\ (mp_max mp < mp_min mp -> v = mp_min mp).
Proof. exact ref_entry_clamps. Qed.
Print Assumptions C23_reference_entry.
Example C23_nonvacuous :
  let mp := {| mp_bias := None; mp_mult_pc := None; mp_mult := 2 ^ 30; mp_exp_pc := None; mp_exp := 1;
               mp_min := -20; mp_max := 100; mp_chan := ChRow; mp_perchannel := false; mp_rounding_log2 := 0 |} in
  map (finish (int_ops checked true (mk_sp s8 s8) (mk_sp s8 s8) s8) mp 10 0) [-1000; -7; 50; 1000] =
  [Ok (-20); Ok 3; Ok 60; Ok 100].
Proof. vm_compute. reflexivity. Qed.

(** Floating point: the stored value is not below clamp_min nor above clamp_max
    (comparisons with NaN are false, so a NaN accumulator passes through). *)
Theorem C23_float : forall prec emax size mp dzp c acc v, SFltb (mp_max mp) (mp_min mp) = false ->
  finish (float_ops prec emax size) mp dzp c acc = Ok v ->
  SFltb v (mp_min mp) = false /\ SFltb (mp_max mp) v = false.
Proof. exact float_finish_clamps. Qed.
Print Assumptions C23_float.
Example C23_float_nonvacuous :
  let mp := default_mul_params (S754_finite true 8388608 (-20)) (S754_finite false 8388608 (-20)) in
  SFltb (mp_max mp) (mp_min mp) = false /\
  finish f32_ops mp 0 0 (S754_finite false 12582912 0) = Ok (S754_finite false 8388608 (-20)).
Proof. vm_compute. auto. Qed.

(** Default parameters: the accumulator itself for raw int32 results ... *)
Theorem C24_default_int32 : forall dbg st pt c acc, is_i32 acc ->
  finish (int_ops checked dbg st pt s32) (default_mul_params (it_lo s32) (it_hi s32)) 0 c acc = Ok acc.
Proof. exact default_raw. Qed.
Print Assumptions C24_default_int32.
Example C24_default_int32_nonvacuous :
  finish (int_ops checked true (mk_sp u8 s8) (mk_sp u8 s8) s32) (default_mul_params (it_lo s32) (it_hi s32)) 0 3 (-77) = Ok (-77).
Proof. vm_compute. reflexivity. Qed.

(** ... and for floating point (a sum is +0 rather than -0). *)
Theorem C24_default_float : forall prec emax size c acc, acc <> S754_zero true ->
  finish (float_ops prec emax size) (default_mul_params (S754_infinity true) (S754_infinity false)) 0 c acc = Ok acc.
Proof. exact default_float_plain. Qed.
Print Assumptions C24_default_float.
Example C24_default_float_nonvacuous :
  finish f32_ops (default_mul_params (S754_infinity true) (S754_infinity false)) 0 0 S754_nan = Ok S754_nan.
Proof. vm_compute. reflexivity. Qed.

(** For narrower destinations the documented default (multiplication by about
    one) is not what the code does: the default multiplier is zero ... *)
Theorem C24_default_quantized_refuted : exists acc,
  finish (int_ops checked true (mk_sp s8 s8) (mk_sp s8 s8) s8) (default_mul_params (it_lo s8) (it_hi s8)) 0 0 acc <> Ok acc /\
  it_lo s8 <= acc <= it_hi s8.
Proof. exact default_quantized_wrong. Qed.
Print Assumptions C24_default_quantized_refuted.

(** ... so that every entry is the destination zero point, whatever the inputs. *)
Theorem C24_default_quantized_constant : forall dbg st pt dt c dzp acc, ity_eqb dt s32 = false -> 0 < it_bits dt ->
  is_i32 acc -> it_lo dt <= dzp <= it_hi dt -> is_i32 dzp ->
  finish (int_ops checked dbg st pt dt) (default_mul_params (it_lo dt) (it_hi dt)) dzp c acc = Ok dzp.
Proof. exact default_quantized_constant. Qed.
Print Assumptions C24_default_quantized_constant.
Example C24_default_quantized_constant_nonvacuous :
  finish (int_ops checked true (mk_sp u8 u8) (mk_sp u8 u8) u8) (default_mul_params (it_lo u8) (it_hi u8)) 128 0 1234567 = Ok 128.
Proof. vm_compute. reflexivity. Qed.
