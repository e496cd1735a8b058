(** C63: multiplications of floats on the AArch64 paths are close to the exact product, and exact for small integers. *)
From Coq Require Import ZArith List SpecFloat.
From Verif Require Import Base SidePair Mat Scalars FloatOps MulParams Kernel TrMulRun SpecMatrix SpecMul X86Mul FloatX86Mul SpecFloatX86 SpecFloatExact SpecFloatError ExampleMul FloatX86Examples FloatExactExamples
  Tune SpecFloatNeon FloatNeonMul FloatNeonError FloatNeonExamples.
Import ListNotations.
Open Scope Z_scope.

(** For finite operands and biases whose products do not add up to 2^128, what is stored is a float within
    ((1 + 2^-24)^(depth + 1) - 1) * (sum of magnitudes) of the exact product, clamped, whatever tunings occur. *)
Theorem C63_close : forall cf dotprod ci l r dst mp g a b c, neon_mul cf g l r dst mp -> finite_values l r dst mp a b c ->
  forall sched x, mul_float_neon cf dotprod ci g sched l r dst mp = Ok (Some x) ->
  forall i j, in_matrix (m_layout dst) i j -> no_overflow (ml_rows (m_layout r) + 1) (magnitude r a b c i j) ->
  exists v V, is_number 24 128 v V (-149) /\ within (ml_rows (m_layout r) + 1) (magnitude r a b c i j) (exact_entry r a b c i j) V /\
  entry x i j = smaller (larger v (mp_min mp)) (mp_max mp).
Proof. exact neon_error. Qed.
Print Assumptions C63_close.
Example C63_nonvacuous : forall ol or od n, good_threads n -> neon_mul (ex_config n) (ex_garbage S754_nan) (rx_l ol) (rx_r or) (nx_dst od) (rx_mp minus_inf inf) /\
  finite_values (rx_l ol) (rx_r or) (nx_dst od) (rx_mp minus_inf inf) rx_au rx_bu rx_cu /\
  forall i j, in_matrix (m_layout (nx_dst od)) i j -> no_overflow (ml_rows (m_layout (rx_r or)) + 1) (magnitude (rx_r or) rx_au rx_bu rx_cu i j) /\ magnitude (rx_r or) rx_au rx_bu rx_cu i j < 2 ^ 425.
Proof. intros ol or od n Hn. split; [apply rx_valid; try exact Hn; reflexivity|]. split; [apply rx_finite|]. apply rx_range. Qed.

(** With finite bounds the stored entry is that close to the exact product clamped to them. *)
Theorem C63_clamped : forall cf dotprod ci l r dst mp g a b c lo hi, neon_mul cf g l r dst mp -> finite_values l r dst mp a b c ->
  is_number 24 128 (mp_min mp) lo (-149) -> is_number 24 128 (mp_max mp) hi (-149) ->
  forall sched x, mul_float_neon cf dotprod ci g sched l r dst mp = Ok (Some x) ->
  forall i j, in_matrix (m_layout dst) i j -> no_overflow (ml_rows (m_layout r) + 1) (magnitude r a b c i j) ->
  exists V, is_number 24 128 (entry x i j) V (-149) /\ V <= hi /\ (lo <= hi -> lo <= V) /\
  within (ml_rows (m_layout r) + 1) (magnitude r a b c i j) (Z.min (Z.max (exact_entry r a b c i j) (lo * 2 ^ 149)) (hi * 2 ^ 149)) V.
Proof. exact neon_error_clamped. Qed.
Print Assumptions C63_clamped.
Example C63_clamped_nonvacuous : is_number 24 128 (f32 0) 0 (-149) /\ is_number 24 128 (f32 6) (6 * 2 ^ 149) (-149).
Proof. repeat split. Qed.

(** A simpler bound, without clamping: (depth + 1) * 2^-23 * (sum of magnitudes). *)
Theorem C63_simple : forall cf dotprod ci l r dst mp g a b c, neon_mul cf g l r dst mp -> finite_values l r dst mp a b c ->
  mp_min mp = S754_infinity true -> mp_max mp = S754_infinity false -> ml_rows (m_layout r) < 2 ^ 23 ->
  forall sched x, mul_float_neon cf dotprod ci g sched l r dst mp = Ok (Some x) ->
  forall i j, in_matrix (m_layout dst) i j -> magnitude r a b c i j < 2 ^ 425 ->
  exists V, is_number 24 128 (entry x i j) V (-149) /\
  2 ^ 23 * Z.abs (V * 2 ^ 149 - exact_entry r a b c i j) <= (ml_rows (m_layout r) + 1) * magnitude r a b c i j.
Proof. exact neon_error_simple. Qed.
Print Assumptions C63_simple.

(** What an x86 path stores differs by at most twice that. *)
Theorem C63_x86 : forall cf cf' p dotprod ci l l' r r' dst dst' mp g a b c,
  float_vector_mul cf p l r dst mp -> neon_mul cf' g l' r' dst' mp -> finite_values l r dst mp a b c -> finite_values l' r' dst' mp a b c ->
  ml_rows (m_layout r) = ml_rows (m_layout r') -> mp_min mp = S754_infinity true -> mp_max mp = S754_infinity false -> ml_rows (m_layout r) < 2 ^ 23 ->
  forall g' sched sched' x y, mul_float_x86 cf p g' sched l r dst mp = Ok (Some x) -> mul_float_neon cf' dotprod ci g sched' l' r' dst' mp = Ok (Some y) ->
  forall i j, in_matrix (m_layout dst) i j -> in_matrix (m_layout dst') i j -> magnitude r a b c i j < 2 ^ 425 ->
  exists V V', is_number 24 128 (entry x i j) V (-149) /\ is_number 24 128 (entry y i j) V' (-149) /\
  2 ^ 22 * Z.abs (V - V') * 2 ^ 149 <= (ml_rows (m_layout r) + 1) * magnitude r a b c i j.
Proof. exact neon_x86_close. Qed.
Print Assumptions C63_x86.

(** If operands and biases are integers times powers of two and all sums at most 2^24 in magnitude, the exact product is
    stored, clamped; *)
Theorem C63_exact : forall cf dotprod ci l r dst mp g a b c e f, neon_mul cf g l r dst mp -> scaled_integers l r dst mp a b c e f -> small_sums l r dst a b c ->
  forall sched x, mul_float_neon cf dotprod ci g sched l r dst mp = Ok (Some x) -> forall i j, in_matrix (m_layout dst) i j ->
  exists v, is_number 24 128 v (integer_entry r a b c i j) (e + f) /\ v <> S754_zero true /\ entry x i j = smaller (larger v (mp_min mp)) (mp_max mp).
Proof. exact neon_exact. Qed.
Print Assumptions C63_exact.
Example C63_exact_nonvacuous : forall ol or od n, good_threads n -> neon_mul (ex_config n) (ex_garbage S754_nan) (px_l ol) (px_r or) (nx_dst od) (px_mp minus_inf inf) /\
  scaled_integers (px_l ol) (px_r or) (nx_dst od) (px_mp minus_inf inf) px_a px_b px_c (-2) (-3) /\ small_sums (px_l ol) (px_r or) (nx_dst od) px_a px_b px_c.
Proof. intros ol or od n Hn. split; [apply px_valid; try exact Hn; reflexivity|]. split; [apply px_scaled|apply px_small]. Qed.
(** The first row, with three threads. *)
Example C63_run : match mul_float_neon (ex_config 3) false nx_ci2 (ex_garbage S754_nan) ex_sched (px_l ColMajor) (px_r RowMajor) (nx_dst RowMajor) (px_mp minus_inf inf) with
  | Ok (Some x) => firstn 10 (content x)
  | _ => []
  end = map (fun j => scaled_float (integer_entry (px_r RowMajor) px_a px_b px_c 0 j) (-5)) (zrange 0 10).
Proof. vm_compute. reflexivity. Qed.

(** the same bits for all tunings, threads, memory and storage, *)
Theorem C63_exact_agree : forall cf cf' dotprod dotprod' ci ci' l l' r r' dst dst' mp g g' a b c e f, neon_mul cf g l r dst mp -> neon_mul cf' g' l' r' dst' mp ->
  scaled_integers l r dst mp a b c e f -> scaled_integers l' r' dst' mp a b c e f -> ml_rows (m_layout r) = ml_rows (m_layout r') ->
  small_sums l r dst a b c -> small_sums l' r' dst' a b c ->
  forall sched sched' x y, mul_float_neon cf dotprod ci g sched l r dst mp = Ok (Some x) -> mul_float_neon cf' dotprod' ci' g' sched' l' r' dst' mp = Ok (Some y) ->
  forall i j, in_matrix (m_layout dst) i j -> in_matrix (m_layout dst') i j -> entry x i j = entry y i j.
Proof. exact neon_exact_agree. Qed.
Print Assumptions C63_exact_agree.

(** and as on the x86 paths, if no bound is NaN or -0. *)
Theorem C63_exact_x86 : forall cf cf' p dotprod ci l l' r r' dst dst' mp g a b c e f, float_vector_mul cf p l r dst mp -> neon_mul cf' g l' r' dst' mp ->
  plain_bound (mp_min mp) -> plain_bound (mp_max mp) -> SFleb (mp_min mp) (mp_max mp) = true ->
  scaled_integers l r dst mp a b c e f -> scaled_integers l' r' dst' mp a b c e f -> ml_rows (m_layout r) = ml_rows (m_layout r') ->
  small_sums l r dst a b c -> small_sums l' r' dst' a b c ->
  forall g' sched sched' x y, mul_float_x86 cf p g' sched l r dst mp = Ok (Some x) -> mul_float_neon cf' dotprod ci g sched' l' r' dst' mp = Ok (Some y) ->
  forall i j, in_matrix (m_layout dst) i j -> in_matrix (m_layout dst') i j -> entry x i j = entry y i j.
Proof. exact neon_x86_exact. Qed.
Print Assumptions C63_exact_x86.
Example C63_bounds_nonvacuous : plain_bound minus_inf /\ plain_bound inf /\ SFleb minus_inf inf = true.
Proof. repeat split; discriminate. Qed.
