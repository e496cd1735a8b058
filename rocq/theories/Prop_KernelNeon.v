(** C65: what the 8-bit kernels for AArch64 compute. *)
From Coq Require Import ZArith List.
From Verif Require Import Base SidePair Mat Scalars Pack IntOps MulParams Kernel Kernel8bit Neon64 NeonPack CpuInfo Tune Kernel8Neon.
From Verif Require Import SpecMatrix SpecSimd SpecPackX86 SpecKernel SpecKernelNeon Kernel8bitExamples NeonDeclBad Kernel8NeonProps Kernel8NeonExamples.
Import ListNotations.
Open Scope Z_scope.

Theorem C65_column : forall dbg t g tmp dt lp rp L R mp sr sc er ec dl dst_zp dst,
  neon_call 8 dt lp rp L R mp sr sc er ec dl dst_zp dst -> ml_cols dl = 1 -> mp_chan mp = ChRow ->
  lo_upper g 46 mod 2 ^ 32 = 0 -> lo_upper g 47 mod 2 ^ 32 = 0 ->
  exists dst', kernel_8bit_neon dbg true t g tmp dt lp rp mp sr sc er ec dl dst_zp dst = Ok dst' /\
    block_computed (fun i j => neon_result dt mp dst_zp i j (exact_accumulator (pl_rows (p_layout lp)) (p_zp lp) (p_zp rp) L R mp i j)) sr sc er ec dl dst dst'.
Proof. exact column_computes. Qed.
Print Assumptions C65_column.

Theorem C65_upper_half_refuted : exists g dt lp rp L R mp dl dst, neon_call 8 dt lp rp L R mp 0 0 16 8 dl 4 dst /\ ml_cols dl = 1 /\ mp_chan mp = ChRow /\
  (forall k, k <> 46%nat -> lo_upper g k = 0) /\ kernel_8bit_neon true true TGeneric g (fun _ => 5) dt lp rp mp 0 0 16 8 dl 4 dst = UB.
Proof. exact upper_half. Qed.
Print Assumptions C65_upper_half_refuted.

Theorem C65_int32_without_sums_refuted : exists lp rp L R mp dl dst d, vector_call 8 s8 s32 lp rp L R mp 0 0 16 8 dl dst /\ 0 < pl_rows (p_layout lp) /\ sums_cover lp /\ sums_cover rp /\ typed s32 dst /\
  ml_cols dl = 1 /\ mp_chan mp = ChRow /\
  kernel_8bit_neon true true TGeneric ex_leftover (fun _ => 5) s32 lp rp mp 0 0 16 8 dl 0 dst = Ok d /\
  ~ block_computed (fun i j => neon_result s32 mp 0 i j (exact_accumulator (pl_rows (p_layout lp)) (p_zp lp) (p_zp rp) L R mp i j)) 0 0 16 8 dl dst d.
Proof. exact int32_without_sums. Qed.
Print Assumptions C65_int32_without_sums_refuted.

Theorem C65_depth_zero_refuted : exists dt lp rp L R mp dl dst, vector_call 8 s8 dt lp rp L R mp 0 0 16 8 dl dst /\ sums_cover lp /\ sums_cover rp /\ typed dt dst /\
  ml_cols dl = 1 /\ mp_chan mp = ChRow /\ pl_rows (p_layout lp) = 0 /\ kernel_8bit_neon true true TGeneric ex_leftover (fun _ => 5) dt lp rp mp 0 0 16 8 dl 4 dst = UB.
Proof. exact depth_zero. Qed.
Print Assumptions C65_depth_zero_refuted.

Theorem C65_inverted_bounds_refuted : exists lp rp L R mp dl dst d, vector_call 8 s8 s8 lp rp L R mp 0 0 16 8 dl dst /\ 0 < pl_rows (p_layout lp) /\ sums_cover lp /\ sums_cover rp /\ typed s8 dst /\
  ml_cols dl = 1 /\ mp_chan mp = ChRow /\
  kernel_8bit_neon true true TGeneric ex_leftover (fun _ => 5) s8 lp rp mp 0 0 16 8 dl 0 dst = Ok d /\
  ~ block_computed (fun i j => neon_result s8 mp 0 i j (exact_accumulator (pl_rows (p_layout lp)) (p_zp lp) (p_zp rp) L R mp i j)) 0 0 16 8 dl dst d.
Proof. exact inverted_bounds. Qed.
Print Assumptions C65_inverted_bounds_refuted.

(** A call that C65_column covers, with results. *)
Example C65_call : neon_call 8 s8 (ex_packed 8 ex_lhs 3) (ex_packed 8 ex_rhs (-2)) ex_lhs ex_rhs (ex_params ChRow (-128) 127) 0 0 16 8 (ex_dst 13 1) 4 ex_buf.
Proof. apply (ex_neon_call s8 ChRow 13 1 8 4); auto; vm_compute; intuition discriminate. Qed.
Example C65_result : exists d, kernel_8bit_neon true true TGeneric ex_leftover (fun _ => 5) s8 (ex_packed 8 ex_lhs 3) (ex_packed 8 ex_rhs (-2)) (ex_params ChRow (-128) 127) 0 0 16 8 (ex_dst 13 1) 4 ex_buf = Ok d /\
  map (bdat d) (zrange 0 14) = [-4; -1; -15; -81; -39; 4; 1; -24; 11; 35; 2; 2; 22; 99].
Proof. exact column_result. Qed.
