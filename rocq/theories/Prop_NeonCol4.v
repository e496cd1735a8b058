(** C71: what kNeon's 8-bit kernel for one destination column computes. *)
From Coq Require Import ZArith List.
From Verif Require Import Base SidePair Mat Scalars Pack IntOps MulParams Kernel Kernel8bit Neon64 NeonPack CpuInfo Tune Kernel8Neon.
From Verif Require Import SpecMatrix SpecSimd SpecPackX86 SpecKernel SpecKernelNeon SpecNeonSums SpecNeonCol4 Kernel8bitExamples NeonDeclBad Kernel8NeonCol4Props Kernel8NeonCol4More.
Import ListNotations.
Open Scope Z_scope.

(** The whole program, for any depth, any number of rows and any type of the destination. *)
Theorem C71_column : forall dbg t g tmp dt lp rp L R mp sr sc er ec dl dst_zp dst,
  cells_call dt lp rp L R mp sr sc er ec dl dst_zp dst -> ml_cols dl = 1 -> mp_chan mp = ChRow ->
  lo_upper g 46 mod 2 ^ 32 = 0 -> lo_upper g 47 mod 2 ^ 32 = 0 ->
  exists dst', kernel_8bit_neon dbg false t g tmp dt lp rp mp sr sc er ec dl dst_zp dst = Ok dst' /\
    block_computed (fun i j => neon_result dt mp dst_zp i j (cells_accumulator (pl_rows (p_layout lp)) (p_zp lp) (p_zp rp) L R mp i j)) sr sc er ec dl dst dst'.
Proof. exact column_computes4. Qed.
Print Assumptions C71_column.

(** Where the column of the right-hand side and a row of the left-hand side are not both -128 at the same level, the accumulators are exact. *)
Theorem C71_exact : forall dbg t g tmp dt lp rp L R mp sr sc er ec dl dst_zp dst,
  cells_call dt lp rp L R mp sr sc er ec dl dst_zp dst -> ml_cols dl = 1 -> mp_chan mp = ChRow ->
  lo_upper g 46 mod 2 ^ 32 = 0 -> lo_upper g 47 mod 2 ^ 32 = 0 ->
  (forall i k, sr <= i < er -> i < ml_rows dl -> 0 <= k < pl_rows (p_layout lp) -> L k i <> -128 \/ R k 0 <> -128) ->
  exists dst', kernel_8bit_neon dbg false t g tmp dt lp rp mp sr sc er ec dl dst_zp dst = Ok dst' /\
    block_computed (fun i j => neon_result dt mp dst_zp i j (exact_accumulator (pl_rows (p_layout lp)) (p_zp lp) (p_zp rp) L R mp i j)) sr sc er ec dl dst dst'.
Proof. exact column_exact. Qed.
Print Assumptions C71_exact.

(** Without the hypothesis on the upper half of the register that holds the variable row. *)
Theorem C71_upper_half_refuted : exists g dt lp rp L R mp dl dst, cells_call dt lp rp L R mp 4 0 12 4 dl 4 dst /\ ml_cols dl = 1 /\ mp_chan mp = ChRow /\
  (forall k, k <> 46%nat -> lo_upper g k = 0) /\ kernel_8bit_neon true false TGeneric g (fun _ => 5) dt lp rp mp 4 0 12 4 dl 4 dst = UB.
Proof. exact upper_half4. Qed.
Print Assumptions C71_upper_half_refuted.

(** A call that the theorems cover, with results; two products of -128 overflow in row 5. *)
Example C71_call : cells_call s16 (fx_packed fx_lhs 3 true) (fx_packed fx_rhs (-2) true) fx_lhs fx_rhs (ex_params ChRow (it_lo s16) (it_hi s16)) 4 0 12 4 (ex_dst 11 1) 4 ex_buf.
Proof. exact fx_call. Qed.
Example C71_result : exists d, fx_run ex_leftover = Ok d /\ map (bdat d) (zrange 0 14) = [99; 99; 99; 99; 32767; 3452; 12689; 24348; 32767; 32767; 5320; 99; 99; 99].
Proof. exact fx_result. Qed.
Example C71_accumulators : map (fun i => exact_accumulator 32 3 (-2) fx_lhs fx_rhs (ex_params ChRow (it_lo s16) (it_hi s16)) i 0) (zrange 4 11) = [109694; 120708; 101482; 97376; 93270; 89164; 85058] /\
  map (fun i => cells_accumulator 32 3 (-2) fx_lhs fx_rhs (ex_params ChRow (it_lo s16) (it_hi s16)) i 0) (zrange 4 11) = [109694; 55172; 101482; 97376; 93270; 89164; 85058].
Proof. exact fx_accumulators. Qed.
