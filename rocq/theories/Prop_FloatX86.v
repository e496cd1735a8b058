(** C53: whole multiplications of floats on the x86 paths: front end, threads, vector packing, vector kernels. *)
From Coq Require Import ZArith List SpecFloat.
From Verif Require Import Base SidePair Mat Scalars FloatOps MulParams Kernel TrMulRun SpecMatrix SpecMul X86Mul FloatX86Mul SpecFloatX86
  FloatX86Props FloatX86More ExampleMul FloatX86Examples FloatX86Bad.
Import ListNotations.
Open Scope Z_scope.

(** For every path, configuration, fresh memory and schedule the multiplication is defined, and if it completes every
    entry of the destination is the bias plus the products in increasing depth, bit for bit, clamped; nothing else changes. *)
Theorem C53_computes : forall c p l r dst mp g, float_vector_mul c p l r dst mp ->
  forall sched, exists out, mul_float_x86 c p g sched l r dst mp = Ok out /\ forall x, out = Some x -> float_product p l r mp dst x.
Proof. exact float_computes. Qed.
Print Assumptions C53_computes.
Example C53_nonvacuous : forall p ol or od fl fr bias lo hi n, good_threads n ->
  float_vector_mul (ex_config n) p (fx_l ol fl) (fx_r or fr) (fx_dst od) (fx_mp bias lo hi).
Proof. exact fx_vector. Qed.
(** Three threads on AVX-512: the first row of the destination, and its padding. *)
Example C53_run : match mul_float_x86 (ex_config 3) PathAvx512 (ex_garbage S754_nan) ex_sched
    (fx_l ColMajor (fun i k => f32 (i + 3 * k - 5))) (fx_r RowMajor (fun k j => f32 (k - 2 * j + 1))) (fx_dst RowMajor)
    (fx_mp (Some (fun j => f32 (100 * j))) (f32 0) (f32 300)) with
  | Ok (Some x) => firstn 6 (content x)
  | _ => []
  end = [f32 196; f32 240; f32 284; f32 300; f32 300; S754_nan].
Proof. vm_compute. reflexivity. Qed.

(** It completes under every fair schedule whose compare-exchanges fail spuriously only finitely often. *)
Theorem C53_terminates : forall c p l r dst mp g, float_vector_mul c p l r dst mp ->
  forall sg N0, (forall i k, 0 <= i < c_max_threads c -> exists k', (k <= k')%nat /\ fst (sg k') = i) ->
  (forall k, (N0 <= k)%nat -> snd (sg k) = false) ->
  exists k out, mul_float_x86 c p g (map sg (seq 0 k)) l r dst mp = Ok (Some out).
Proof. exact float_fair. Qed.
Print Assumptions C53_terminates.

(** Bit for bit the same on AVX2 and AVX-512, whatever the storage of operands and destination, threads and memory;
    and on AVX if no bias is -0. *)
Theorem C53_agree : forall c c' p p' l l' r r' dst dst' mp,
  float_vector_mul c p l r dst mp -> float_vector_mul c' p' l' r' dst' mp ->
  (p <> PathAvx /\ p' <> PathAvx) \/ (p = p' /\ no_negative_zero_bias dst mp) ->
  same_entries l l' -> same_entries r r' ->
  forall g g' sched sched' x y, mul_float_x86 c p g sched l r dst mp = Ok (Some x) -> mul_float_x86 c' p' g' sched' l' r' dst' mp = Ok (Some y) ->
  forall i j, in_matrix (m_layout dst) i j -> entry x i j = entry y i j.
Proof. exact float_agree. Qed.
Print Assumptions C53_agree.
Example C53_agree_nonvacuous : no_negative_zero_bias (fx_dst ColMajor) (fx_mp None minus_inf inf) /\
  forall o o' f, same_entries (fx_l o f) (fx_l o' f) /\ same_entries (fx_r o f) (fx_r o' f).
Proof. split; [intros i j _; split; [reflexivity | discriminate]|]. intros o o' f. split; apply fx_same; discriminate. Qed.

(** With a bias of -0 the sign of a zero depends on the storage order on AVX. *)
Theorem C53_avx_storage_refuted : exists c l l' r dst mp, float_vector_mul c PathAvx l r dst mp /\ float_vector_mul c PathAvx l' r dst mp /\ same_entries l l' /\
  exists g sched x y, mul_float_x86 c PathAvx g sched l r dst mp = Ok (Some x) /\ mul_float_x86 c PathAvx g sched l' r dst mp = Ok (Some y) /\
  entry x 0 0 = S754_zero true /\ entry y 0 0 = S754_zero false.
Proof. exact avx_storage_matters. Qed.
Print Assumptions C53_avx_storage_refuted.

(** Entries are never NaN and within the bounds. *)
Theorem C53_bounds : forall c p l r dst mp, float_vector_mul c p l r dst mp -> mp_min mp <> S754_nan -> mp_max mp <> S754_nan ->
  forall g sched x, mul_float_x86 c p g sched l r dst mp = Ok (Some x) ->
  forall i j, in_matrix (m_layout dst) i j -> entry x i j <> S754_nan /\ SFleb (mp_min mp) (entry x i j) = true /\
    (SFleb (mp_min mp) (mp_max mp) = true -> SFleb (entry x i j) (mp_max mp) = true).
Proof. exact float_bounds. Qed.
Print Assumptions C53_bounds.

(** On AVX, without a bias, the product is ReferenceMul's bit for bit where that is not NaN. *)
Theorem C53_avx_reference : forall c l r dst mp, float_vector_mul c PathAvx l r dst mp -> mp_bias mp = None ->
  m_zp l = 0 -> m_zp r = 0 -> m_zp dst = 0 -> plain_bound (mp_min mp) -> plain_bound (mp_max mp) ->
  exists ref, reference_mul f32_ops l r mp dst = Ok ref /\
  forall g sched x, mul_float_x86 c PathAvx g sched l r dst mp = Ok (Some x) -> forall i j, in_matrix (m_layout dst) i j ->
    (entry ref i j <> S754_nan -> entry x i j = entry ref i j) /\
    (entry ref i j = S754_nan -> entry x i j = if SFltb (mp_min mp) (mp_max mp) then mp_max mp else mp_min mp).
Proof. exact avx_reference. Qed.
Print Assumptions C53_avx_reference.
Example C53_avx_reference_nonvacuous : plain_bound (mp_min (fx_mp None (f32 0) inf)) /\ plain_bound (mp_max (fx_mp None (f32 0) inf)).
Proof. split; split; discriminate. Qed.

(** NaN is not kept on any path, *)
Theorem C53_nan_refuted : forall p, exists c l r dst mp, float_vector_mul c p l r dst mp /\ mp_bias mp = None /\ exists g sched x ref,
  mul_float_x86 c p g sched l r dst mp = Ok (Some x) /\ reference_mul f32_ops l r mp dst = Ok ref /\
  entry ref 0 0 = S754_nan /\ entry x 0 0 = S754_infinity false.
Proof. exact nan_lost. Qed.
Print Assumptions C53_nan_refuted.

(** AVX2 and AVX-512 do not compute ReferenceMul even without NaN, *)
Theorem C53_fused_reference_refuted : forall p, p <> PathAvx -> exists c l r dst mp, float_vector_mul c p l r dst mp /\ mp_bias mp = None /\ exists g sched x ref,
  mul_float_x86 c p g sched l r dst mp = Ok (Some x) /\ reference_mul f32_ops l r mp dst = Ok ref /\
  entry ref 0 0 = f_of_Z 24 128 0 /\ entry x 0 0 = f_of_Z 24 128 1.
Proof. exact fused_differs. Qed.
Print Assumptions C53_fused_reference_refuted.

(** nor does any path with a bias, *)
Theorem C53_bias_reference_refuted : forall p, exists c l r dst mp, float_vector_mul c p l r dst mp /\ exists g sched x ref,
  mul_float_x86 c p g sched l r dst mp = Ok (Some x) /\ reference_mul f32_ops l r mp dst = Ok ref /\
  entry ref 0 0 = f_of_Z 24 128 1 /\ entry x 0 0 = f_of_Z 24 128 0.
Proof. exact bias_differs. Qed.
Print Assumptions C53_bias_reference_refuted.

(** and a destination with a stride of 2^29 floats, fine on the portable path, is written outside its buffer. *)
Theorem C53_stride_refuted : forall p, exists c l r dst mp, valid_call c f32_ops (float_blocks p) l r dst mp /\
  (exists g sched, mul_float_x86 c p g sched l r dst mp = UB) /\
  forall g sched, exists out, mul c f32_ops (float_blocks p) g sched l r dst mp = Ok out.
Proof. exact stride_wraps. Qed.
Print Assumptions C53_stride_refuted.
