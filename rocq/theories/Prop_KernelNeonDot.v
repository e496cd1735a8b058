(** C66: what the kernels for AArch64 with dot products compute. *)
From Coq Require Import ZArith List.
From Verif Require Import Base SidePair Mat Scalars Pack IntOps MulParams Kernel Kernel8bit Neon64 NeonPack CpuInfo Tune Kernel8Neon.
From Verif Require Import SpecMatrix SpecSimd SpecPackX86 SpecKernel SpecKernelNeon Kernel8bitExamples NeonDeclBad Kernel8NeonDotProps Kernel8NeonExamples Kernel8NeonDotExamples.
Import ListNotations.
Open Scope Z_scope.

Theorem C66_dotprod : forall dbg t g tmp dt lp rp L R mp sr sc er ec dl dst_zp dst,
  neon_call 8 dt lp rp L R mp sr sc er ec dl dst_zp dst -> t <> TA55ish ->
  lo_upper g 46 mod 2 ^ 32 = 0 -> lo_upper g 47 mod 2 ^ 32 = 0 ->
  exists dst', kernel_8bit_neon dbg true t g tmp dt lp rp mp sr sc er ec dl dst_zp dst = Ok dst' /\
    block_computed (fun i j => neon_result dt mp dst_zp i j (exact_accumulator (pl_rows (p_layout lp)) (p_zp lp) (p_zp rp) L R mp i j)) sr sc er ec dl dst dst'.
Proof. exact dotprod_computes. Qed.
Print Assumptions C66_dotprod.

Theorem C66_upper_half_refuted : exists g dt lp rp L R mp dl dst, neon_call 8 dt lp rp L R mp 0 0 16 16 dl 4 dst /\
  (forall k, k <> 47%nat -> lo_upper g k = 0) /\ kernel_8bit_neon true true TGeneric g (fun _ => 5) dt lp rp mp 0 0 16 16 dl 4 dst = UB.
Proof. exact upper_half_col. Qed.
Print Assumptions C66_upper_half_refuted.

(** A call that C66_dotprod covers, with results. *)
Example C66_call : neon_call 8 s8 (ex_packed 8 ex_lhs 3) (ex_packed 8 ex_rhs (-2)) ex_lhs ex_rhs (ex_params ChCol (-128) 127) 0 0 16 16 (ex_dst 13 11) 4 ex_buf.
Proof. apply (ex_neon_call s8 ChCol 13 11 16 4); auto; vm_compute; intuition discriminate. Qed.
Example C66_result : forall t, t = TGeneric \/ t = TX1 -> exists d,
  kernel_8bit_neon true true t ex_leftover (fun _ => 5) s8 (ex_packed 8 ex_lhs 3) (ex_packed 8 ex_rhs (-2)) (ex_params ChCol (-128) 127) 0 0 16 16 (ex_dst 13 11) 4 ex_buf = Ok d /\
  map (bdat d) (zrange 0 14) = [-4; 1; -2; -8; -1; 1; -1; -7; 0; 0; -4; -4; 1; 99] /\ map (bdat d) (zrange 150 164) = [6; 2; 3; 5; 4; -3; 4; 7; 0; 1; 6; 6; 2; 99].
Proof. exact region_result. Qed.
