(** C62: whole multiplications of floats on the AArch64 paths: front end, threads, packing and kernels in assembly. *)
From Coq Require Import ZArith List SpecFloat.
From Verif Require Import Base SidePair Mat Scalars FloatOps MulParams Kernel TrMulRun SpecMatrix SpecMul X86Mul FloatX86Mul SpecFloatX86 ExampleMul FloatX86Examples FloatX86Bad
  Tune SpecFloatNeon FloatNeonMul FloatNeonProps FloatNeonMore FloatNeonExamples FloatNeonBad.
Import ListNotations.
Open Scope Z_scope.

(** For every configuration, schedule and fresh memory, whatever processors the threads run on and whatever the registers
    hold, the multiplication is defined, and if it completes every entry is, bit for bit, the products added in the order of
    one of the tunings that occurred, plus the bias, clamped; nothing else changes. *)
Theorem C62_computes : forall c dotprod ci l r dst mp g, neon_mul c g l r dst mp ->
  forall sched, exists out, mul_float_neon c dotprod ci g sched l r dst mp = Ok out /\
    forall x, out = Some x -> neon_product (fun tu => exists a b, tu = ci_tuning ci a b) l r mp dst x.
Proof. exact neon_computes. Qed.
Print Assumptions C62_computes.
Example C62_nonvacuous : forall ol or od fl fr bias lo hi n g, good_threads n -> floats fl -> floats fr -> (forall b i, bias = Some b -> is_float (b i)) -> is_float lo -> is_float hi ->
  is_float g -> neon_mul (ex_config n) (ex_garbage g) (nx_l ol fl) (nx_r or fr) (nx_dst od) (nx_mp bias lo hi).
Proof. exact nx_valid. Qed.
(** Three threads, two kinds of processors: the first row of the destination, and its padding. *)
Example C62_run : match mul_float_neon (ex_config 3) true nx_ci2 (ex_garbage S754_nan) ex_sched
    (nx_l ColMajor (fun i k => f32 (i + 3 * k - 5))) (nx_r RowMajor (fun k j => f32 (k - 2 * j + 1))) (nx_dst RowMajor)
    (nx_mp (Some (fun i => f32 (100 * i + 17))) (f32 0) (f32 500)) with
  | Ok (Some x) => firstn 11 (content x)
  | _ => []
  end = map f32 [500; 386; 260; 134; 8; 0; 0; 0; 0; 0] ++ [S754_nan].
Proof. vm_compute. reflexivity. Qed.

(** It completes under every fair schedule whose compare-exchanges fail spuriously only finitely often. *)
Theorem C62_terminates : forall c dotprod ci l r dst mp g, neon_mul c g l r dst mp ->
  forall sg N0, (forall i k, 0 <= i < c_max_threads c -> exists k', (k <= k')%nat /\ fst (sg k') = i) ->
  (forall k, (N0 <= k)%nat -> snd (sg k) = false) ->
  exists k out, mul_float_neon c dotprod ci g (map sg (seq 0 k)) l r dst mp = Ok (Some out).
Proof. exact neon_fair. Qed.
Print Assumptions C62_terminates.

(** Bit for bit the same for kNeon and kNeonDotprod, whatever the storage of operands and destination, threads, memory and
    registers, if the depth is below 8 or all kernels are unrolled alike. *)
Theorem C62_agree : forall c c' dotprod dotprod' ci ci' l l' r r' dst dst' mp g g', neon_mul c g l r dst mp -> neon_mul c' g' l' r' dst' mp ->
  ml_rows (m_layout r) < 8 \/ (exists u, (forall a b, unrolled (ci_tuning ci a b) = u) /\ (forall a b, unrolled (ci_tuning ci' a b) = u)) ->
  same_entries l l' -> same_entries r r' ->
  forall sched sched' x y, mul_float_neon c dotprod ci g sched l r dst mp = Ok (Some x) -> mul_float_neon c' dotprod' ci' g' sched' l' r' dst' mp = Ok (Some y) ->
  forall i j, in_matrix (m_layout dst) i j -> entry x i j = entry y i j.
Proof. exact neon_agree. Qed.
Print Assumptions C62_agree.
Example C62_agree_nonvacuous : (forall t a b, unrolled (ci_tuning (nx_ci t) a b) = unrolled t) /\
  forall o o' f, same_entries (nx_l o f) (nx_l o' f) /\ same_entries (nx_r o f) (nx_r o' f).
Proof. split; [reflexivity|]. intros o o' f. split; apply fx_same; discriminate. Qed.

(** Otherwise the result depends on the processors on which the blocks are computed. *)
Theorem C62_tuning_refuted : exists c l r dst mp g, neon_mul c g l r dst mp /\ exists dotprod ci ci' sched x y,
  mul_float_neon c dotprod ci g sched l r dst mp = Ok (Some x) /\ mul_float_neon c dotprod ci' g sched l r dst mp = Ok (Some y) /\
  in_matrix (m_layout dst) 4 0 /\ entry x 4 0 = f_of_Z 24 128 1 /\ entry y 4 0 = f_of_Z 24 128 0.
Proof. exact tuning_matters. Qed.
Print Assumptions C62_tuning_refuted.

(** Equal rows and columns with equal biases give equal entries, if the depth is below 8, or no kernel is unrolled, or all are
    and the entries are both in the first quarter of their 8x8 blocks or both not. *)
Theorem C62_alike : forall c dotprod ci l r dst mp g, neon_mul c g l r dst mp ->
  forall sched x, mul_float_neon c dotprod ci g sched l r dst mp = Ok (Some x) ->
  forall i j i' j', in_matrix (m_layout dst) i j -> in_matrix (m_layout dst) i' j' ->
  ml_rows (m_layout r) < 8 \/ (forall a b, unrolled (ci_tuning ci a b) = false) \/ ((forall a b, unrolled (ci_tuning ci a b) = true) /\ quarter i j = quarter i' j') ->
  (forall k, 0 <= k < ml_rows (m_layout r) -> entry l i k = entry l i' k /\ entry r k j = entry r k j') -> neon_bias mp i j = neon_bias mp i' j' ->
  entry x i j = entry x i' j'.
Proof. exact neon_alike. Qed.
Print Assumptions C62_alike.
Example C62_alike_nonvacuous : quarter 1 2 = quarter 9 3 /\ (forall a b, unrolled (ci_tuning (nx_ci TGeneric) a b) = true) /\
  neon_bias (nx_mp None minus_inf inf) 1 2 = neon_bias (nx_mp None minus_inf inf) 9 3.
Proof. repeat split. Qed.

(** Not otherwise: a row is multiplied differently in the second half of a block. *)
Theorem C62_place_refuted : exists c l r dst mp g, neon_mul c g l r dst mp /\ mp_bias mp = None /\ (forall k, 0 <= k < ml_rows (m_layout r) -> entry l 0 k = entry l 4 k) /\
  exists dotprod ci sched x, (forall a b, ci_tuning ci a b = TGeneric) /\ mul_float_neon c dotprod ci g sched l r dst mp = Ok (Some x) /\
  in_matrix (m_layout dst) 0 0 /\ in_matrix (m_layout dst) 4 0 /\ entry x 0 0 = f_of_Z 24 128 0 /\ entry x 4 0 = f_of_Z 24 128 1.
Proof. exact place_matters. Qed.
Print Assumptions C62_place_refuted.

(** A NaN among what an entry is made of makes it NaN; so does a bound that is NaN. *)
Theorem C62_nan : forall c dotprod ci l r dst mp g, neon_mul c g l r dst mp ->
  forall sched x, mul_float_neon c dotprod ci g sched l r dst mp = Ok (Some x) -> forall i j, in_matrix (m_layout dst) i j ->
  (exists k, 0 <= k < ml_rows (m_layout r) /\ (entry l i k = S754_nan \/ entry r k j = S754_nan)) \/ neon_bias mp i j = S754_nan \/ mp_min mp = S754_nan \/ mp_max mp = S754_nan ->
  entry x i j = S754_nan.
Proof. exact neon_nan. Qed.
Print Assumptions C62_nan.

(** Other entries are within the bounds. *)
Theorem C62_bounds : forall c dotprod ci l r dst mp g, neon_mul c g l r dst mp -> mp_min mp <> S754_nan -> mp_max mp <> S754_nan ->
  forall sched x, mul_float_neon c dotprod ci g sched l r dst mp = Ok (Some x) -> forall i j, in_matrix (m_layout dst) i j ->
  entry x i j = S754_nan \/ (SFleb (entry x i j) (mp_max mp) = true /\ (SFleb (mp_min mp) (mp_max mp) = true -> SFleb (mp_min mp) (entry x i j) = true)).
Proof. exact neon_bounds. Qed.
Print Assumptions C62_bounds.

(** Without bias, entries are those of AVX2 and AVX-512, but for NaN and the sign of zeros, if the depth is below 8 or no kernel
    is unrolled. *)
Theorem C62_x86 : forall c c' p dotprod ci l l' r r' dst dst' mp g, float_vector_mul c p l r dst mp -> neon_mul c' g l' r' dst' mp -> p <> PathAvx ->
  mp_bias mp = None -> mp_min mp <> S754_nan -> mp_max mp <> S754_nan -> SFleb (mp_min mp) (mp_max mp) = true ->
  ml_rows (m_layout r) < 8 \/ (forall a b, unrolled (ci_tuning ci a b) = false) ->
  same_entries l l' -> same_entries r r' ->
  forall g' sched sched' x y, mul_float_x86 c p g' sched l r dst mp = Ok (Some x) -> mul_float_neon c' dotprod ci g sched' l' r' dst' mp = Ok (Some y) ->
  forall i j, in_matrix (m_layout dst) i j -> entry y i j = S754_nan \/ SFeqb (entry x i j) (entry y i j) = true.
Proof. exact neon_x86. Qed.
Print Assumptions C62_x86.
Example C62_x86_nonvacuous : SFleb minus_inf inf = true /\ (forall a b, unrolled (ci_tuning (nx_ci TA55ish) a b) = false).
Proof. split; reflexivity. Qed.

(** The stride of a source cannot be anything: packing may overflow computing the offset of a row that does not exist. *)
Theorem C62_wide_stride_refuted : exists c l r dst mp g, valid_call c f32_ops neon_blocks l r dst mp /\ all_floats (m_data l) /\ all_floats (m_data r) /\ all_floats (m_data dst) /\
  4 * ml_stride (m_layout dst) <= int_max /\ last_offset (ml_stride (m_layout l)) (ml_rows (m_layout l)) = int_max + 1 /\ exists dotprod ci sched, mul_float_neon c dotprod ci g sched l r dst mp = UB.
Proof. exact wide_stride. Qed.
Print Assumptions C62_wide_stride_refuted.
