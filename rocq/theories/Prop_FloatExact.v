(** C54: multiplications of floats that are small integers times powers of two are exact, on every path. *)
From Coq Require Import ZArith List SpecFloat.
From Verif Require Import Base SidePair Mat Scalars FloatOps MulParams Kernel TrMulRun SpecMatrix SpecMul X86Mul FloatX86Mul SpecFloatX86 SpecFloatExact
  FloatExactProps ExampleMul FloatX86Examples FloatExactExamples.
Import ListNotations.
Open Scope Z_scope.

(** The x86 paths store the float whose value is the exact product, clamped. *)
Theorem C54_x86 : forall cf p l r dst mp a b c e f, float_vector_mul cf p l r dst mp ->
  scaled_integers l r dst mp a b c e f -> small_sums l r dst a b c ->
  forall g sched x, mul_float_x86 cf p g sched l r dst mp = Ok (Some x) -> forall i j, in_matrix (m_layout dst) i j ->
  exists v, is_number 24 128 v (integer_entry r a b c i j) (e + f) /\ v <> S754_zero true /\ entry x i j = vector_clamp (mp_min mp) (mp_max mp) v.
Proof. exact x86_exact. Qed.
Print Assumptions C54_x86.
Example C54_nonvacuous : forall p ol or od lo hi n, good_threads n ->
  float_vector_mul (ex_config n) p (qx_l ol) (qx_r or) (fx_dst od) (qx_mp lo hi) /\
  scaled_integers (qx_l ol) (qx_r or) (fx_dst od) (qx_mp lo hi) qx_a qx_b qx_c (-2) (-3) /\ small_sums (qx_l ol) (qx_r or) (fx_dst od) qx_a qx_b qx_c.
Proof. intros p ol or od lo hi n Hn. split; [apply fx_vector; exact Hn|]. split; [apply qx_scaled | apply qx_small]. Qed.
(** The first row on AVX-512 with three threads; the first entry is -2233033/32. *)
Example C54_run : match mul_float_x86 (ex_config 3) PathAvx512 (ex_garbage S754_nan) ex_sched (qx_l ColMajor) (qx_r RowMajor) (fx_dst RowMajor) (qx_mp minus_inf inf) with
  | Ok (Some x) => firstn 5 (content x)
  | _ => []
  end = map (fun j => scaled_float (integer_entry (qx_r RowMajor) qx_a qx_b qx_c 0 j) (-5)) (zrange 0 5).
Proof. vm_compute. reflexivity. Qed.

(** So does the portable path, *)
Theorem C54_portable : forall cf kl l r dst mp a b c e f, valid_call cf f32_ops kl l r dst mp -> m_zp l = 0 -> m_zp r = 0 -> m_zp dst = 0 ->
  scaled_integers l r dst mp a b c e f -> small_sums l r dst a b c ->
  forall g sched x, mul cf f32_ops kl g sched l r dst mp = Ok (Some x) -> forall i j, in_matrix (m_layout dst) i j ->
  exists v, is_number 24 128 v (integer_entry r a b c i j) (e + f) /\ v <> S754_zero true /\ entry x i j = fmax (fmin v (mp_max mp)) (mp_min mp).
Proof. exact portable_exact. Qed.
Print Assumptions C54_portable.
Example C54_portable_nonvacuous : forall p ol or od lo hi n, good_threads n ->
  valid_call (ex_config n) f32_ops (float_blocks p) (qx_l ol) (qx_r or) (fx_dst od) (qx_mp lo hi).
Proof. intros p ol or od lo hi n Hn. apply (fv_call _ _ _ _ _ _ (fx_vector p ol or od _ _ _ lo hi n Hn)). Qed.

(** and what is stored is the same bit for bit on all x86 paths, *)
Theorem C54_agree : forall cf cf' p p' l l' r r' dst dst' mp a b c e f,
  float_vector_mul cf p l r dst mp -> float_vector_mul cf' p' l' r' dst' mp ->
  scaled_integers l r dst mp a b c e f -> scaled_integers l' r' dst' mp a b c e f -> ml_rows (m_layout r) = ml_rows (m_layout r') ->
  small_sums l r dst a b c -> small_sums l' r' dst' a b c ->
  forall g g' sched sched' x y, mul_float_x86 cf p g sched l r dst mp = Ok (Some x) -> mul_float_x86 cf' p' g' sched' l' r' dst' mp = Ok (Some y) ->
  forall i j, in_matrix (m_layout dst) i j -> in_matrix (m_layout dst') i j -> entry x i j = entry y i j.
Proof. exact x86_paths_agree. Qed.
Print Assumptions C54_agree.

(** and on the portable one, if no bound is NaN or -0. *)
Theorem C54_agree_portable : forall cf cf' p kl l l' r r' dst dst' mp a b c e f,
  float_vector_mul cf p l r dst mp -> valid_call cf' f32_ops kl l' r' dst' mp -> m_zp l' = 0 -> m_zp r' = 0 -> m_zp dst' = 0 ->
  plain_bound (mp_min mp) -> plain_bound (mp_max mp) ->
  scaled_integers l r dst mp a b c e f -> scaled_integers l' r' dst' mp a b c e f -> ml_rows (m_layout r) = ml_rows (m_layout r') ->
  small_sums l r dst a b c -> small_sums l' r' dst' a b c ->
  forall g g' sched sched' x y, mul_float_x86 cf p g sched l r dst mp = Ok (Some x) -> mul cf' f32_ops kl g' sched' l' r' dst' mp = Ok (Some y) ->
  forall i j, in_matrix (m_layout dst) i j -> in_matrix (m_layout dst') i j -> entry x i j = entry y i j.
Proof. exact portable_agrees. Qed.
Print Assumptions C54_agree_portable.

(** Without clamping the entries are the exact product. *)
Theorem C54_unclamped : forall cf p l r dst mp a b c e f, float_vector_mul cf p l r dst mp ->
  mp_min mp = S754_infinity true -> mp_max mp = S754_infinity false ->
  scaled_integers l r dst mp a b c e f -> small_sums l r dst a b c ->
  forall g sched x, mul_float_x86 cf p g sched l r dst mp = Ok (Some x) -> forall i j, in_matrix (m_layout dst) i j ->
  is_number 24 128 (entry x i j) (integer_entry r a b c i j) (e + f) /\ entry x i j <> S754_zero true.
Proof. exact x86_unclamped. Qed.
Print Assumptions C54_unclamped.

(** The bound on the sums cannot be larger: on every path 4096 * 4096 + 1 * 1 is stored as 2^24. *)
Theorem C54_larger_bound_refuted : forall p, exists cf l r dst mp a b c, float_vector_mul cf p l r dst mp /\
  mp_min mp = S754_infinity true /\ mp_max mp = S754_infinity false /\ scaled_integers l r dst mp a b c 0 0 /\
  (forall i j, in_matrix (m_layout dst) i j -> sum_of (fun k => Z.abs (a i k * b k j)) (ml_rows (m_layout r)) + Z.abs (c i j) = 2 ^ 24 + 1) /\
  exists g sched x, mul_float_x86 cf p g sched l r dst mp = Ok (Some x) /\ in_matrix (m_layout dst) 0 0 /\
  is_number 24 128 (entry x 0 0) (2 ^ 24) 0 /\ integer_entry r a b c 0 0 = 2 ^ 24 + 1.
Proof. exact bound_is_tight. Qed.
Print Assumptions C54_larger_bound_refuted.
