(** C60: multiplications of floats are close to the exact product, on every path. *)
From Coq Require Import ZArith List SpecFloat.
From Verif Require Import Base SidePair Mat Scalars FloatOps MulParams Kernel TrMulRun SpecMatrix SpecMul X86Mul FloatX86Mul SpecFloatX86 SpecFloatExact
  SpecFloatError FloatErrorProps ExampleMul FloatX86Examples FloatExactExamples FloatErrorExamples.
Import ListNotations.
Open Scope Z_scope.

(** For finite operands and biases whose products do not add up to 2^128, the x86 paths store a float that is within
    ((1 + 2^-24)^n - 1) * (sum of magnitudes) of the exact product, clamped; n is the depth, on AVX one more. *)
Theorem C60_x86 : forall cf p l r dst mp a b c, float_vector_mul cf p l r dst mp -> finite_values l r dst mp a b c ->
  forall g sched x, mul_float_x86 cf p g sched l r dst mp = Ok (Some x) ->
  forall i j, in_matrix (m_layout dst) i j -> no_overflow (roundings p (ml_rows (m_layout r))) (magnitude r a b c i j) ->
  exists v V, is_number 24 128 v V (-149) /\ within (roundings p (ml_rows (m_layout r))) (magnitude r a b c i j) (exact_entry r a b c i j) V /\
  entry x i j = vector_clamp (mp_min mp) (mp_max mp) v.
Proof. exact x86_error. Qed.
Print Assumptions C60_x86.
Example C60_nonvacuous : forall p ol or od lo hi n, good_threads n ->
  float_vector_mul (ex_config n) p (ix_l ol) (ix_r or) (fx_dst od) (ix_mp lo hi) /\
  finite_values (ix_l ol) (ix_r or) (fx_dst od) (ix_mp lo hi) ix_au ix_bu ix_cu /\
  forall i j, in_matrix (m_layout (fx_dst od)) i j -> no_overflow (roundings p (ml_rows (m_layout (ix_r or)))) (magnitude (ix_r or) ix_au ix_bu ix_cu i j).
Proof. intros p ol or od lo hi n Hn. split; [apply fx_vector; exact Hn|]. split; [apply ix_finite|]. intros i j I. apply (ix_range p or od i j I). Qed.
(** The first entry is not exact, and not the same on all paths. *)
Example C60_run : map (fun p => match mul_float_x86 (ex_config 3) p (ex_garbage S754_nan) ex_sched (ix_l ColMajor) (ix_r RowMajor) (fx_dst RowMajor) (ix_mp minus_inf inf) with
  | Ok (Some x) => firstn 1 (content x)
  | _ => []
  end) [PathAvx; PathAvx2; PathAvx512] = [[f32 9560872]; [f32 9560873]; [f32 9560873]] /\
  9560872 * 2 ^ 298 < exact_entry (ix_r RowMajor) ix_au ix_bu ix_cu 0 0 < 9560873 * 2 ^ 298.
Proof. split; vm_compute; [reflexivity | split; reflexivity]. Qed.

(** So does the portable path, which adds the bias last. *)
Theorem C60_portable : forall cf kl l r dst mp a b c, valid_call cf f32_ops kl l r dst mp -> m_zp l = 0 -> m_zp r = 0 -> m_zp dst = 0 -> finite_values l r dst mp a b c ->
  forall g sched x, mul cf f32_ops kl g sched l r dst mp = Ok (Some x) ->
  forall i j, in_matrix (m_layout dst) i j -> no_overflow (ml_rows (m_layout r) + 2) (magnitude r a b c i j) ->
  exists v V, is_number 24 128 v V (-149) /\ within (ml_rows (m_layout r) + 2) (magnitude r a b c i j) (exact_entry r a b c i j) V /\
  entry x i j = fmax (fmin v (mp_max mp)) (mp_min mp).
Proof. exact portable_error. Qed.
Print Assumptions C60_portable.
Example C60_portable_nonvacuous : forall p ol or od lo hi n, good_threads n ->
  valid_call (ex_config n) f32_ops (float_blocks p) (ix_l ol) (ix_r or) (fx_dst od) (ix_mp lo hi) /\
  forall i j, in_matrix (m_layout (fx_dst od)) i j -> no_overflow (ml_rows (m_layout (ix_r or)) + 2) (magnitude (ix_r or) ix_au ix_bu ix_cu i j).
Proof. intros p ol or od lo hi n Hn. split; [apply (fv_call _ _ _ _ _ _ (fx_vector p ol or od _ _ _ lo hi n Hn))|]. intros i j I. apply (ix_range PathAvx or od i j I). Qed.

(** With finite bounds the stored entry is that close to the exact product clamped to them. *)
Theorem C60_clamped : forall cf p l r dst mp a b c lo hi, float_vector_mul cf p l r dst mp -> finite_values l r dst mp a b c ->
  is_number 24 128 (mp_min mp) lo (-149) -> is_number 24 128 (mp_max mp) hi (-149) ->
  forall g sched x, mul_float_x86 cf p g sched l r dst mp = Ok (Some x) ->
  forall i j, in_matrix (m_layout dst) i j -> no_overflow (roundings p (ml_rows (m_layout r))) (magnitude r a b c i j) ->
  exists V, is_number 24 128 (entry x i j) V (-149) /\ lo <= V /\ (lo <= hi -> V <= hi) /\
  within (roundings p (ml_rows (m_layout r))) (magnitude r a b c i j) (Z.max (lo * 2 ^ 149) (Z.min (exact_entry r a b c i j) (hi * 2 ^ 149))) V.
Proof. exact x86_error_clamped. Qed.
Print Assumptions C60_clamped.
Example C60_clamped_nonvacuous : is_number 24 128 (f32 0) 0 (-149) /\ is_number 24 128 (f32 6) (6 * 2 ^ 149) (-149).
Proof. repeat split. Qed.

Theorem C60_portable_clamped : forall cf kl l r dst mp a b c lo hi, valid_call cf f32_ops kl l r dst mp -> m_zp l = 0 -> m_zp r = 0 -> m_zp dst = 0 -> finite_values l r dst mp a b c ->
  is_number 24 128 (mp_min mp) lo (-149) -> is_number 24 128 (mp_max mp) hi (-149) ->
  forall g sched x, mul cf f32_ops kl g sched l r dst mp = Ok (Some x) ->
  forall i j, in_matrix (m_layout dst) i j -> no_overflow (ml_rows (m_layout r) + 2) (magnitude r a b c i j) ->
  exists V, is_number 24 128 (entry x i j) V (-149) /\ lo <= V /\ (lo <= hi -> V <= hi) /\
  within (ml_rows (m_layout r) + 2) (magnitude r a b c i j) (Z.max (lo * 2 ^ 149) (Z.min (exact_entry r a b c i j) (hi * 2 ^ 149))) V.
Proof. exact portable_error_clamped. Qed.
Print Assumptions C60_portable_clamped.

(** A simpler bound, without clamping: (depth + 1) * 2^-23 * (sum of magnitudes). *)
Theorem C60_simple : forall cf p l r dst mp a b c, float_vector_mul cf p l r dst mp -> finite_values l r dst mp a b c ->
  mp_min mp = S754_infinity true -> mp_max mp = S754_infinity false -> ml_rows (m_layout r) < 2 ^ 23 ->
  forall g sched x, mul_float_x86 cf p g sched l r dst mp = Ok (Some x) ->
  forall i j, in_matrix (m_layout dst) i j -> magnitude r a b c i j < 2 ^ 425 ->
  exists V, is_number 24 128 (entry x i j) V (-149) /\
  2 ^ 23 * Z.abs (V * 2 ^ 149 - exact_entry r a b c i j) <= (ml_rows (m_layout r) + 1) * magnitude r a b c i j.
Proof. exact x86_error_simple. Qed.
Print Assumptions C60_simple.
Example C60_simple_nonvacuous : forall or od i j, in_matrix (m_layout (fx_dst od)) i j -> magnitude (ix_r or) ix_au ix_bu ix_cu i j < 2 ^ 425 /\ ml_rows (m_layout (ix_r or)) < 2 ^ 23.
Proof. intros or od i j I. split; [apply (ix_range PathAvx or od i j I)|reflexivity]. Qed.

(** Two x86 paths, whatever the storage, threads and memory, differ by at most twice that. *)
Theorem C60_paths : forall cf cf' p p' l l' r r' dst dst' mp a b c,
  float_vector_mul cf p l r dst mp -> float_vector_mul cf' p' l' r' dst' mp -> finite_values l r dst mp a b c -> finite_values l' r' dst' mp a b c ->
  ml_rows (m_layout r) = ml_rows (m_layout r') -> mp_min mp = S754_infinity true -> mp_max mp = S754_infinity false -> ml_rows (m_layout r) < 2 ^ 23 ->
  forall g g' sched sched' x y, mul_float_x86 cf p g sched l r dst mp = Ok (Some x) -> mul_float_x86 cf' p' g' sched' l' r' dst' mp = Ok (Some y) ->
  forall i j, in_matrix (m_layout dst) i j -> in_matrix (m_layout dst') i j -> magnitude r a b c i j < 2 ^ 425 ->
  exists V V', is_number 24 128 (entry x i j) V (-149) /\ is_number 24 128 (entry y i j) V' (-149) /\
  2 ^ 22 * Z.abs (V - V') * 2 ^ 149 <= (ml_rows (m_layout r) + 1) * magnitude r a b c i j.
Proof. exact paths_close. Qed.
Print Assumptions C60_paths.

(** The error is not small compared with the product: 1 + 4096 * 4096 - 4096 * 4096 is stored as 0 on every x86 path. *)
Theorem C60_relative_refuted : forall p, exists cf l r dst mp a b c, float_vector_mul cf p l r dst mp /\
  mp_min mp = S754_infinity true /\ mp_max mp = S754_infinity false /\ finite_values l r dst mp a b c /\
  exists g sched x, mul_float_x86 cf p g sched l r dst mp = Ok (Some x) /\ in_matrix (m_layout dst) 0 0 /\
  entry x 0 0 = S754_zero false /\ exact_entry r a b c 0 0 = 2 ^ 298.
Proof. exact cancellation. Qed.
Print Assumptions C60_relative_refuted.
