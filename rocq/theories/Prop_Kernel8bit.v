(** C49: what the 8-bit x86 kernels compute; C50: the same kernels against the portable one. *)
From Coq Require Import ZArith List Lia.
From Verif Require Import Base SidePair Mat Scalars Pack IntOps MulParams Kernel.
From Verif Require Import SpecRound SpecMatrix SpecPack SpecMul SpecSimd SpecKernel.
From Verif Require Import Kernel8bit Kernel8bitAvx Kernel8bitExamples Kernel8bitBad.
Import ListNotations.
Open Scope Z_scope.

(** AVX2: in the block of the call that is inside the destination, each entry is the exact dot product plus
    the bias modulo 2^32, rounded twice, offset and clamped unless the destination is int32; nothing
    else in the destination changes and no memory outside the buffers is read. *)
Theorem C49_avx2 : forall dbg rt dt lp rp L R mp sr sc er ec dl dzp dst, rhs_type true rt ->
  vector_call 8 rt dt lp rp L R mp sr sc er ec dl dst ->
  exists dst', kernel_x86 dbg avx2 rt dt lp rp mp sr sc er ec dl dzp dst = Ok dst' /\
    block_computed (fun i j => vector_result dt mp dzp i j
      (exact_accumulator (pl_rows (p_layout lp)) (p_zp lp) (p_zp rp) L R mp i j)) sr sc er ec dl dst dst'.
Proof. exact avx2_computes. Qed.
Print Assumptions C49_avx2.
Example C49_avx2_nonvacuous :
  vector_call 8 s16 u8 (ex_packed 8 ex_lhs 3) (ex_packed 8 ex_rhs (-2)) ex_lhs ex_rhs (ex_params ChCol 0 255) 0 0 16 16 (ex_dst 13 11) ex_buf /\
  map (value_at (kernel_x86 true avx2 s16 u8 (ex_packed 8 ex_lhs 3) (ex_packed 8 ex_rhs (-2)) (ex_params ChCol 0 255) 0 0 16 16 (ex_dst 13 11) 7 ex_buf))
    [0; 12; 13; 90; 91; 162; 163] = map Some [0; 4; 99; 0; 3; 5; 99].
Proof. split; [apply (ex_call 8 s16 u8 ChCol 13 11 16); auto; lia | vm_compute; reflexivity]. Qed.
Example C49_avx2_single_column_nonvacuous :
  vector_call 8 s8 s16 (ex_packed 8 ex_lhs 3) (ex_packed 8 ex_rhs (-2)) ex_lhs ex_rhs (ex_params ChRow (-32768) 32767) 0 0 16 8 (ex_dst 13 1) ex_buf /\
  map (value_at (kernel_x86 true avx2 s8 s16 (ex_packed 8 ex_lhs 3) (ex_packed 8 ex_rhs (-2)) (ex_params ChRow (-32768) 32767) 0 0 16 8 (ex_dst 13 1) 7 ex_buf))
    [0; 7; 8; 12; 13] = map Some [-1; -21; 14; 25; 99].
Proof. split; [apply (ex_call 8 s8 s16 ChRow 13 1 8); auto; lia | vm_compute; reflexivity]. Qed.

Theorem C49_avx : forall dbg dt lp rp L R mp sr sc er ec dl dzp dst,
  vector_call 8 s8 dt lp rp L R mp sr sc er ec dl dst ->
  exists dst', kernel_x86 dbg avx s8 dt lp rp mp sr sc er ec dl dzp dst = Ok dst' /\
    block_computed (fun i j => vector_result dt mp dzp i j
      (exact_accumulator (pl_rows (p_layout lp)) (p_zp lp) (p_zp rp) L R mp i j)) sr sc er ec dl dst dst'.
Proof. exact avx_computes. Qed.
Print Assumptions C49_avx.
Example C49_avx_nonvacuous :
  vector_call 8 s8 u8 (ex_packed 8 ex_lhs 3) (ex_packed 8 ex_rhs (-2)) ex_lhs ex_rhs (ex_params ChCol 0 255) 0 0 16 16 (ex_dst 13 11) ex_buf /\
  map (value_at (kernel_x86 true avx s8 u8 (ex_packed 8 ex_lhs 3) (ex_packed 8 ex_rhs (-2)) (ex_params ChCol 0 255) 0 0 16 16 (ex_dst 13 11) 7 ex_buf))
    [0; 12; 13; 90; 91; 162; 163] = map Some [0; 4; 99; 0; 3; 5; 99].
Proof. split; [apply (ex_call 8 s8 u8 ChCol 13 11 16); auto; lia | vm_compute; reflexivity]. Qed.

Theorem C49_avx512 : forall dbg rt dt lp rp L R mp sr sc er ec dl dzp dst, rhs_type true rt ->
  vector_call 16 rt dt lp rp L R mp sr sc er ec dl dst ->
  exists dst', kernel_x86 dbg avx512 rt dt lp rp mp sr sc er ec dl dzp dst = Ok dst' /\
    block_computed (fun i j => vector_result dt mp dzp i j
      (exact_accumulator (pl_rows (p_layout lp)) (p_zp lp) (p_zp rp) L R mp i j)) sr sc er ec dl dst dst'.
Proof. exact avx512_computes. Qed.
Print Assumptions C49_avx512.
Example C49_avx512_nonvacuous :
  vector_call 16 s8 s8 (ex_packed 16 ex_lhs 3) (ex_packed 16 ex_rhs (-2)) ex_lhs ex_rhs (ex_params ChRow (-128) 127) 0 0 32 32 (ex_dst 29 17) ex_buf /\
  map (value_at (kernel_x86 true avx512 s8 s8 (ex_packed 16 ex_lhs 3) (ex_packed 16 ex_rhs (-2)) (ex_params ChRow (-128) 127) 0 0 32 32 (ex_dst 29 17) 7 ex_buf))
    [0; 28; 29; 100; 101] = map Some [-1; 107; 99; 16; -18].
Proof. split; [apply (ex_call 16 s8 s8 ChRow 29 17 32); auto; lia | vm_compute; reflexivity]. Qed.

(** Not for every destination ruy accepts: the offset of eight columns is computed as an int32. The
    portable kernel has no such limit. *)
Theorem C49_far_columns_refuted : exists lp rp mp dl dst,
  packed_blocks 8 s8 lp /\ packed_blocks 8 s8 rp /\ p_zp lp = 0 /\ p_zp rp = 0 /\ params_cover s32 mp 16 /\
  valid_layout dl /\ ml_order dl = ColMajor /\ ml_stride dl * ml_cols dl <= blen dst /\ ml_rows dl = 16 /\ ml_cols dl = 8 /\
  kernel_x86 true avx2 s8 s32 lp rp mp 0 0 16 8 dl 0 dst = UB /\
  exists d0, kernel_run true (int_ops checked true s8s s8s s32) 8 8 lp rp mp 0 0 16 8 dl 0 dst = Ok d0.
Proof. exact far_columns. Qed.
Print Assumptions C49_far_columns_refuted.

(** Nor for every depth: the product of the zero points and the depth is computed as an int32, whatever the
    entries (here the exact result is 0). *)
Theorem C49_deep_refuted : exists lp rp mp dl dst,
  packed_blocks 8 s8 lp /\ packed_blocks 8 s8 rp /\ p_zp lp = -128 /\ p_zp rp = -128 /\ params_cover s32 mp 8 /\
  valid_layout dl /\ ml_order dl = ColMajor /\ ml_stride dl * ml_cols dl <= blen dst /\
  kernel_x86 true avx2 s8 s32 lp rp mp 0 0 8 8 dl 0 dst = UB /\
  forall i j, 0 <= i < 8 -> 0 <= j < 8 -> exact_accumulator (pl_rows (p_layout lp)) (-128) (-128) (fun _ _ => -128) (fun _ _ => -128) mp i j = 0.
Proof. exact deep_zero_points. Qed.
Print Assumptions C49_deep_refuted.

(** C50: an int32 destination with zero point 0 is the same, byte for byte, as with the portable kernel
    (with 32-bit arithmetic that wraps). *)
Theorem C50_int32 : forall v rt, vector_kernel v rt -> forall dbg dbg' st pt lp rp L R mp sr sc er ec dl dst,
  vector_call (v_n v) rt s32 lp rp L R mp sr sc er ec dl dst -> mp_min mp = int_min -> mp_max mp = int_max ->
  exists d d0, kernel_x86 dbg v rt s32 lp rp mp sr sc er ec dl 0 dst = Ok d /\
    kernel_run dbg' (int_ops wrapping dbg' st pt s32) (v_n v) (v_n v) lp rp mp sr sc er ec dl 0 dst = Ok d0 /\
    blen d = blen d0 /\ forall q, bdat d q = bdat d0 q.
Proof. exact portable_same_int32. Qed.
Print Assumptions C50_int32.
Example C50_int32_nonvacuous :
  vector_call 16 s16 s32 (ex_packed 16 ex_lhs 3) (ex_packed 16 ex_rhs (-2)) ex_lhs ex_rhs (plain_params int_min int_max) 0 0 32 16 (ex_dst 32 3) ex_buf.
Proof. apply (int32_call 16 s16); auto. Qed.

(** Quantized: what the portable kernel stores or one more; the same where the exponent is not negative. *)
Theorem C50_quantized : forall v rt, vector_kernel v rt -> forall dbg dbg' st pt dt lp rp L R mp sr sc er ec dl dzp dst,
  vector_call (v_n v) rt dt lp rp L R mp sr sc er ec dl dst -> dt <> s32 -> it_lo dt <= dzp <= it_hi dt ->
  (forall i j, sr <= i < er -> sc <= j < ec -> in_matrix dl i j ->
     entry_fits (exact_accumulator (pl_rows (p_layout lp)) (p_zp lp) (p_zp rp) L R mp i j) (exponent_at mp i j)) ->
  exists d d0, kernel_x86 dbg v rt dt lp rp mp sr sc er ec dl dzp dst = Ok d /\
    kernel_run dbg' (int_ops wrapping dbg' st pt dt) (v_n v) (v_n v) lp rp mp sr sc er ec dl dzp dst = Ok d0 /\
    blen d = blen d0 /\ (forall q, bdat d0 q <= bdat d q <= bdat d0 q + 1) /\
    (forall i j, sr <= i < er -> sc <= j < ec -> in_matrix dl i j -> 0 <= exponent_at mp i j ->
       bdat d (position dl i j) = bdat d0 (position dl i j)).
Proof. exact portable_within_one. Qed.
Print Assumptions C50_quantized.

(** The hypotheses hold of a call, and the difference of one does occur. *)
Theorem C50_equal_refuted : exists lp rp L R mp dl dst d d0,
  vector_call 8 s8 s8 lp rp L R mp 0 0 16 8 dl dst /\
  (forall i j, 0 <= i < 16 -> 0 <= j < 8 -> in_matrix dl i j ->
     entry_fits (exact_accumulator (pl_rows (p_layout lp)) (p_zp lp) (p_zp rp) L R mp i j) (exponent_at mp i j)) /\
  kernel_x86 true avx2 s8 s8 lp rp mp 0 0 16 8 dl 0 dst = Ok d /\
  kernel_run true (int_ops checked true s8s s8s s8) 8 8 lp rp mp 0 0 16 8 dl 0 dst = Ok d0 /\
  bdat d 1 = bdat d0 1 + 1.
Proof. exact quantized_differs. Qed.
Print Assumptions C50_equal_refuted.

(** The zero point of an int32 destination: the vector kernel ignores it, the portable one adds it. *)
Theorem C50_zero_point_refuted : exists lp rp L R mp dl dst d d0,
  vector_call 8 s8 s32 lp rp L R mp 0 0 16 8 dl dst /\ mp_min mp = int_min /\ mp_max mp = int_max /\
  kernel_x86 true avx2 s8 s32 lp rp mp 0 0 16 8 dl 5 dst = Ok d /\
  kernel_run true (int_ops checked true s8s s8s s32) 8 8 lp rp mp 0 0 16 8 dl 5 dst = Ok d0 /\
  bdat d0 0 = bdat d 0 + 5.
Proof. exact int32_zero_point. Qed.
Print Assumptions C50_zero_point_refuted.
