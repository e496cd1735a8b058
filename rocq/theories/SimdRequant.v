(** Model of the requantization sequences of the vector kernels. *)
From Coq Require Import ZArith List Bool.
From Verif Require Import Base Simd.
Import ListNotations.
Open Scope Z_scope.

(** * AVX2, kernel_avx2_fma.cc:355-534 (the same code at 880-1000) *)

(** kernel_avx2_fma.cc:465-491. *)
Definition avx2_rounding_right_shift (results exponent : vec) : vec :=
  let zeros := setzero 32 in
  let mask_rightshift_gtz := cmpgt_epi32 exponent zeros in
  let one_shift_exp_minus1 := sllv_epi32 (set1 4 8 1) (sub_epi32 exponent (set1 4 8 1)) in
  let nudge := blendv_epi32 zeros one_shift_exp_minus1 mask_rightshift_gtz in
  let r_plus_nudge := add_epi32 results nudge in
  let shifted_sum := srav_epi32 r_plus_nudge exponent in
  let one_shift_31minus_exp := sllv_epi32 (set1 4 8 1) (sub_epi32 (set1 4 8 31) exponent) in
  let mask_num_plus_nudge_overflow := cmpgt_epi32 results (sub_epi32 (set1 4 8 0x7fffffff) nudge) in
  blendv_epi32 shifted_sum one_shift_31minus_exp mask_num_plus_nudge_overflow.

(** kernel_avx2_fma.cc:359-391 and 493-517. [setr_epi32 (0, 2, 4, 6, 1, 3, 5, 7)]
    lists its lanes from the lowest. *)
Definition avx2_apply_multiplier (m_vector e_vector : vec) (dst_zero_point : Z) (accum : vec) : vec :=
  let m_64bit_low := cvtepi32_epi64 (extracti128 m_vector 0) in
  let m_64bit_high := cvtepi32_epi64 (extracti128 m_vector 1) in
  let zero_vector := setzero 32 in
  let left_shift := max_epi32 e_vector zero_vector in
  let neg_e_vector := sub_epi32 zero_vector e_vector in
  let right_shift := max_epi32 neg_e_vector zero_vector in
  let final_right_shift := set1 4 8 31 in
  let final_right_shift_low := cvtepi32_epi64 (extracti128 final_right_shift 0) in
  let final_right_shift_high := cvtepi32_epi64 (extracti128 final_right_shift 1) in
  let convert_to_unsigned_64 := set1 8 4 0x8000000000000000 in
  let offset_vector := add_epi64 (slli_epi64 (set1 8 4 1) 30) convert_to_unsigned_64 in
  let post_scaling_offset := if dst_zero_point =? 0 then setzero 32 else set1 4 8 dst_zero_point in
  let repack_perm := of_lanes 4 [0; 2; 4; 6; 1; 3; 5; 7] in
  let shifted_accum := sllv_epi32 accum left_shift in
  let scaled_v_low := mul_epi32 (cvtepi32_epi64 (extracti128 shifted_accum 0)) m_64bit_low in
  let scaled_v_high := mul_epi32 (cvtepi32_epi64 (extracti128 shifted_accum 1)) m_64bit_high in
  let scaled_v_low := add_epi64 scaled_v_low offset_vector in
  let scaled_v_high := add_epi64 scaled_v_high offset_vector in
  let scaled_v_low := srlv_epi64 scaled_v_low final_right_shift_low in
  let scaled_v_high := srlv_epi64 scaled_v_high final_right_shift_high in
  let scaled_v_high := slli_epi64 scaled_v_high 32 in
  let results := blend_epi32 scaled_v_low scaled_v_high 0xaa in
  let results := permutevar8x32 results repack_perm in
  let results := avx2_rounding_right_shift results right_shift in
  add_epi32 results post_scaling_offset.


(** * AVX, kernel_avx.cc: 256-bit integer operations made of 128-bit ones *)

(** kernel_avx.cc:98-104, 131-196, 330-341, 392-401: each half on its own. *)
Definition avx_halves2 (f : vec -> vec -> vec) (a b : vec) : vec :=
  let a_lo := extracti128 a 0 in let a_hi := extracti128 a 1 in
  let b_lo := extracti128 b 0 in let b_hi := extracti128 b 1 in
  set_m128i (f a_hi b_hi) (f a_lo b_lo).
Definition avx_mm256_max_epi32 := avx_halves2 max_epi32.
Definition avx_mm256_min_epi32 := avx_halves2 min_epi32.
Definition avx_mm256_add_epi32 := avx_halves2 add_epi32.
Definition avx_mm256_sub_epi32 := avx_halves2 sub_epi32.
Definition avx_mm256_add_epi64 := avx_halves2 add_epi64.
Definition avx_mm256_mullo_epi32 := avx_halves2 mullo_epi32.
Definition avx_mm256_mul_epi32 := avx_halves2 mul_epi32.
Definition avx_mm256_cmpgt_epi32 := avx_halves2 cmpgt_epi32.
Definition avx_mm256_madd_epi16 := avx_halves2 madd_epi16.
Definition avx_mm256_slli_epi64 (a : vec) (imm : Z) : vec :=
  set_m128i (slli_epi64 (extracti128 a 1) imm) (slli_epi64 (extracti128 a 0) imm).

(** kernel_avx.cc:95-101; the 128-bit cvtepi32_epi64 converts the low half of
    its argument. *)
Definition avx_mm_cvtepi32_epi64 (a : vec) : vec := cvtepi32_epi64 (pick 8 a [0%nat]).
Definition avx_mm256_cvtepi32_epi64 (a : vec) : vec :=
  let lo := avx_mm_cvtepi32_epi64 a in
  let hi := avx_mm_cvtepi32_epi64 (unpackhi_epi64 a (setzero 16)) in
  set_m128i hi lo.

(** kernel_avx.cc:231-255. *)
Definition avx_mm_srlv_epi64 (a b : vec) : vec :=
  let res_lo := srl_epi64 a b in
  let hi_count := unpackhi_epi64 b (setzero 16) in
  let res_hi := srl_epi64 a hi_count in
  let tmp_hi := permute_pd res_hi 1 in
  unpacklo_epi64 res_lo tmp_hi.
Definition avx_mm256_srlv_epi64 := avx_halves2 avx_mm_srlv_epi64.

(** kernel_avx.cc:284-328; permute_ps of a 128-bit register is shuffle_epi32. *)
Definition avx_mm_sllv_epi32 (a b : vec) : vec :=
  let res0 := sll_epi32 a (blend_epi32 (setzero 16) b 1) in
  let tmp1 := shuffle_epi32 b 1 in
  let a1 := shuffle_epi32 a 1 in
  let res1 := sll_epi32 a1 (blend_epi32 (setzero 16) tmp1 1) in
  let tmp2 := shuffle_epi32 b 2 in
  let res2 := sll_epi32 a (blend_epi32 (setzero 16) tmp2 1) in
  let tmp3 := shuffle_epi32 b 3 in
  let a3 := shuffle_epi32 a 48 in
  let res3 := sll_epi32 a3 (blend_epi32 (setzero 16) tmp3 1) in
  let f_01 := unpacklo_epi32 res0 res1 in
  let f_23 := unpackhi_epi32 res2 res3 in
  unpacklo_epi64 f_01 f_23.
Definition avx_mm256_sllv_epi32 := avx_halves2 avx_mm_sllv_epi32.

(** kernel_avx.cc:207-214: note [imm & 0xe] for the low half. *)
Definition avx_mm256_blend_epi32 (a b : vec) (imm : Z) : vec :=
  let lo := blend_epi32 (extracti128 a 0) (extracti128 b 0) (Z.land imm 0xe) in
  let hi := blend_epi32 (extracti128 a 1) (extracti128 b 1) (Z.shiftr imm 4) in
  set_m128i hi lo.

(** kernel_avx.cc:364-378. *)
Definition avx_permute_epi32_even_odds (a : vec) : vec :=
  let tmp_lo := shuffle_epi32 (extracti128 a 0) 0xd8 in
  let tmp_hi := shuffle_epi32 (extracti128 a 1) 0xd8 in
  set_m128i (unpackhi_epi64 tmp_lo tmp_hi) (unpacklo_epi64 tmp_lo tmp_hi).

(** kernel_avx.cc:403-431. [_mm256_extract_epi32] gives an int, [_mm_srai_epi32]
    takes the count as unsigned; BlendM128_epi64 is a blend of 64-bit lanes. *)
Definition avx_mm256_srav_epi32 (a b : vec) : vec :=
  let a_lo := extracti128 a 0 in
  let a_hi := extracti128 a 1 in
  let c i := nth i (ulanes 4 b) 0 in
  let r0 := srai_epi32 a_lo (c 0%nat) in
  let r1 := srai_epi32 a_lo (c 1%nat) in
  let r2 := srai_epi32 a_lo (c 2%nat) in
  let r3 := srai_epi32 a_lo (c 3%nat) in
  let r4 := srai_epi32 a_hi (c 4%nat) in
  let r5 := srai_epi32 a_hi (c 5%nat) in
  let r6 := srai_epi32 a_hi (c 6%nat) in
  let r7 := srai_epi32 a_hi (c 7%nat) in
  let r01 := blend_epi32 r0 r1 2 in
  let r23 := blend_epi32 r2 r3 8 in
  let r45 := blend_epi32 r4 r5 2 in
  let r67 := blend_epi32 r6 r7 8 in
  let r0123 := blend 8 r01 r23 2 in
  let r4567 := blend 8 r45 r67 2 in
  set_m128i r4567 r0123.

(** kernel_avx.cc:835-867. *)
Definition avx_rounding_right_shift (results exponent : vec) : vec :=
  let zeros := setzero 32 in
  let mask_rightshift_gtz := avx_mm256_cmpgt_epi32 exponent zeros in
  let one_shift_exp_minus1 := avx_mm256_sllv_epi32 (set1 4 8 1) (avx_mm256_sub_epi32 exponent (set1 4 8 1)) in
  let nudge := blendv_epi32 zeros one_shift_exp_minus1 mask_rightshift_gtz in
  let r_plus_nudge := avx_mm256_add_epi32 results nudge in
  let shifted_sum := avx_mm256_srav_epi32 r_plus_nudge exponent in
  let one_shift_31minus_exp := avx_mm256_sllv_epi32 (set1 4 8 1) (avx_mm256_sub_epi32 (set1 4 8 31) exponent) in
  let mask_num_plus_nudge_overflow :=
    avx_mm256_cmpgt_epi32 results (avx_mm256_sub_epi32 (set1 4 8 0x7fffffff) nudge) in
  blendv_epi32 shifted_sum one_shift_31minus_exp mask_num_plus_nudge_overflow.

(** kernel_avx.cc:724-761 and 869-901. *)
Definition avx_apply_multiplier (m_vector e_vector : vec) (dst_zero_point : Z) (accum : vec) : vec :=
  let m_64bit_low := avx_mm256_cvtepi32_epi64 (extracti128 m_vector 0) in
  let m_64bit_high := avx_mm256_cvtepi32_epi64 (extracti128 m_vector 1) in
  let zero_vector := setzero 32 in
  let left_shift := avx_mm256_max_epi32 e_vector zero_vector in
  let neg_e_vector := avx_mm256_sub_epi32 zero_vector e_vector in
  let right_shift := avx_mm256_max_epi32 neg_e_vector zero_vector in
  let final_right_shift := set1 4 8 31 in
  let final_right_shift_low := avx_mm256_cvtepi32_epi64 (extracti128 final_right_shift 0) in
  let final_right_shift_high := avx_mm256_cvtepi32_epi64 (extracti128 final_right_shift 1) in
  let convert_to_unsigned_64 := set1 8 4 0x8000000000000000 in
  let post_scaling_offset := if dst_zero_point =? 0 then setzero 32 else set1 4 8 dst_zero_point in
  let offset_vector := avx_mm256_add_epi64 (avx_mm256_slli_epi64 (set1 8 4 1) 30) convert_to_unsigned_64 in
  let shifted_accum := avx_mm256_sllv_epi32 accum left_shift in
  let scaled_v_low := avx_mm256_mul_epi32 (avx_mm256_cvtepi32_epi64 (extracti128 shifted_accum 0)) m_64bit_low in
  let scaled_v_high := avx_mm256_mul_epi32 (avx_mm256_cvtepi32_epi64 (extracti128 shifted_accum 1)) m_64bit_high in
  let scaled_v_low := avx_mm256_add_epi64 scaled_v_low offset_vector in
  let scaled_v_high := avx_mm256_add_epi64 scaled_v_high offset_vector in
  let scaled_v_low := avx_mm256_srlv_epi64 scaled_v_low final_right_shift_low in
  let scaled_v_high := avx_mm256_srlv_epi64 scaled_v_high final_right_shift_high in
  let scaled_v_high := avx_mm256_slli_epi64 scaled_v_high 32 in
  let results := avx_mm256_blend_epi32 scaled_v_low scaled_v_high 0xaa in
  let results := avx_permute_epi32_even_odds results in
  let results := avx_rounding_right_shift results right_shift in
  avx_mm256_add_epi32 results post_scaling_offset.


(** * AVX-512, kernel_avx512.cc:320-500 *)

(** kernel_avx512.cc:358-384. *)
Definition avx512_rounding_right_shift (results exponent : vec) : vec :=
  let zeros := setzero 64 in
  let mask_rightshift_gtz := cmpgt_epi64_mask exponent zeros in
  let one_shift_exp_minus1 := sllv_epi64 (set1 8 8 1) (sub_epi64 exponent (set1 8 8 1)) in
  let nudge := mask_mov_epi64 zeros mask_rightshift_gtz one_shift_exp_minus1 in
  let r_plus_nudge := binop 8 Z.add results nudge in
  let shifted_sum := srav_epi64 r_plus_nudge exponent in
  let one_shift_31minus_exp := sllv_epi64 (set1 8 8 1) (sub_epi64 (set1 8 8 31) exponent) in
  let mask_num_plus_nudge_overflow := cmpgt_epi64_mask results (sub_epi64 (set1 8 8 0x7fffffff) nudge) in
  mask_mov_epi64 shifted_sum mask_num_plus_nudge_overflow one_shift_31minus_exp.

(** The constants, kernel_avx512.cc:326-356. *)
Definition avx512_left_shift (e_vector : vec) : vec := max_epi32 e_vector (setzero 64).
Definition avx512_right_shift (e_vector : vec) : vec := max_epi32 (sub_epi32 (setzero 64) e_vector) (setzero 64).
Definition avx512_offset_vector : vec := slli_epi64 (set1 8 8 1) 30.
Definition avx512_final_right_shift : vec := set1 4 16 31.
Definition avx512_wide (v : vec) (half : nat) : vec := cvtepi32_epi64 (extracti256 v half).

(** kernel_avx512.cc:482-500: the destination zero point. *)
Definition avx512_add_dst_zero_point (dst_zero_point : Z) (accum : vec) : vec :=
  if dst_zero_point =? 0 then accum else add_epi32 accum (set1 4 16 dst_zero_point).

(** kernel_avx512.cc:442-465: multipliers by row. *)
Definition avx512_apply_multiplier (m_vector e_vector : vec) (dst_zero_point : Z) (accum : vec) : vec :=
  let accum := sllv_epi32 accum (avx512_left_shift e_vector) in
  let scaled_v_low := mul_epi32 (avx512_wide accum 0) (avx512_wide m_vector 0) in
  let scaled_v_high := mul_epi32 (avx512_wide accum 1) (avx512_wide m_vector 1) in
  let scaled_v_low := add_epi64 scaled_v_low avx512_offset_vector in
  let scaled_v_high := add_epi64 scaled_v_high avx512_offset_vector in
  let scaled_v_low := srav_epi64 scaled_v_low (avx512_wide avx512_final_right_shift 0) in
  let scaled_v_high := srav_epi64 scaled_v_high (avx512_wide avx512_final_right_shift 1) in
  let scaled_v_low := avx512_rounding_right_shift scaled_v_low (avx512_wide (avx512_right_shift e_vector) 0) in
  let scaled_v_high := avx512_rounding_right_shift scaled_v_high (avx512_wide (avx512_right_shift e_vector) 1) in
  avx512_add_dst_zero_point dst_zero_point (insert_high (cvtepi64_epi32 scaled_v_low) (cvtepi64_epi32 scaled_v_high)).

(** kernel_avx512.cc:387-424: multipliers by column. *)
Definition avx512_apply_multiplier_col (m_vector e_vector : vec) (dst_zero_point : Z) (col : Z) (accum : vec) : vec :=
  let perm_64bit_vals := set1 8 8 (col mod 8) in
  let half := if col <? 8 then 0%nat else 1%nat in
  let left_shift_val := permutexvar_epi32 (set1 4 16 col) (avx512_left_shift e_vector) in
  let m_64bit_val := permutexvar_epi64 perm_64bit_vals (avx512_wide m_vector half) in
  let offset_vector_val := permutexvar_epi64 perm_64bit_vals avx512_offset_vector in
  let final_right_shift_val := permutexvar_epi64 perm_64bit_vals (avx512_wide avx512_final_right_shift half) in
  let right_shift_val := permutexvar_epi64 perm_64bit_vals (avx512_wide (avx512_right_shift e_vector) half) in
  let accum := sllv_epi32 accum left_shift_val in
  let scaled_v_low := mul_epi32 (avx512_wide accum 0) m_64bit_val in
  let scaled_v_high := mul_epi32 (avx512_wide accum 1) m_64bit_val in
  let scaled_v_low := add_epi64 scaled_v_low offset_vector_val in
  let scaled_v_high := add_epi64 scaled_v_high offset_vector_val in
  let scaled_v_low := srav_epi64 scaled_v_low final_right_shift_val in
  let scaled_v_high := srav_epi64 scaled_v_high final_right_shift_val in
  let scaled_v_low := avx512_rounding_right_shift scaled_v_low right_shift_val in
  let scaled_v_high := avx512_rounding_right_shift scaled_v_high right_shift_val in
  avx512_add_dst_zero_point dst_zero_point (insert_high (cvtepi64_epi32 scaled_v_low) (cvtepi64_epi32 scaled_v_high)).


(** * NEON, kernel_arm64.cc:523-586 (the same sequence in the other 8-bit
    kernels of kernel_arm64.cc and kernel_arm32.cc)

    A register is the list of its 32-bit lanes, as signed numbers. *)

Definition neon_lanes2 (f : Z -> Z -> Z) : list Z -> list Z -> list Z := map2 (fun x y => wrap_s 32 (f x y)).
Definition neon_saturate (z : Z) : Z := Z.max int_min (Z.min int_max z).
(** SSHL, SRSHL: the count is the signed low byte of the lane; a negative count
    shifts right, with rounding in SRSHL. *)
Definition neon_sshl : list Z -> list Z -> list Z :=
  neon_lanes2 (fun x c => let c := wrap_s 8 c in if 0 <=? c then x * 2 ^ c else x / 2 ^ (- c)).
Definition neon_srshl : list Z -> list Z -> list Z :=
  neon_lanes2 (fun x c => let c := wrap_s 8 c in if 0 <=? c then x * 2 ^ c else (x + 2 ^ (- c - 1)) / 2 ^ (- c)).
(** SQDMULH: the high half of the doubled product, saturated. *)
Definition neon_sqdmulh : list Z -> list Z -> list Z := neon_lanes2 (fun x y => neon_saturate (2 * x * y / 2 ^ 32)).
Definition neon_smin_lanes : list Z -> list Z -> list Z := neon_lanes2 Z.min.
Definition neon_sub_lanes : list Z -> list Z -> list Z := neon_lanes2 Z.sub.

(** v14: exponents, v15: multipliers, v8: -1 in every lane (mvni, kernel_arm64.cc:404); kernel_arm64.cc:537-561. *)
Definition neon_apply_multiplier (v15 v14 : list Z) (v16 : list Z) : list Z :=
  let v8 := repeat (-1) (length v14) in
  let v11 := neon_smin_lanes v8 v14 in
  let v12 := neon_sub_lanes v14 v11 in
  let v16 := neon_sshl v16 v12 in
  let v16 := neon_sqdmulh v16 v15 in
  neon_srshl v16 v11.

(** Channels are columns, kernel_arm64.cc:567-592: column [col] of the block. *)
Definition neon_apply_multiplier_col (v15 v14 : list Z) (col : nat) (v16 : list Z) : list Z :=
  let v8 := repeat (-1) (length v14) in
  let v11 := neon_smin_lanes v8 v14 in
  let v12 := neon_sub_lanes v14 v11 in
  let dup (v : list Z) := repeat (nth col v 0) (length v) in
  let v16 := neon_sshl v16 (dup v12) in
  let v16 := neon_sqdmulh v16 (dup v15) in
  neon_srshl v16 (dup v11).

