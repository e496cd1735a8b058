(** Model of the instruction sequences of the 8-bit x86 kernels that differ between
    ruy/kernel_avx2_fma.cc, ruy/kernel_avx.cc and ruy/kernel_avx512.cc. *)
From Coq Require Import ZArith List Bool.
From Verif Require Import Base SidePair Mat Scalars IntOps MulParams Simd SimdRequant Kernel8bit.
Import ListNotations.
Open Scope Z_scope.

(** ** Stores of 256-bit registers, kernel_x86.h:354-545

    [shuf] is mm256_shuffle_epi8<path>. mm_storeu_si16/si32/si64 store the first 2, 4 or
    8 bytes. The scalars stored one by one come from _mm256_extract_epi8 and the like.
    Counts outside 0..8 only fail a debug assertion. *)
Definition low_bytes (k : nat) (v : vec) : vec := firstn k v.

(** kernel_x86.h:354-403; int8 and uint8. *)
Definition n_storeu_cvtepi32_epi8 (shuf : vec -> vec -> vec) (t : ity) (residual_rows : Z) (v : vec)
    (p : Z) (b : buf Z) : res (buf Z) :=
  let shuffled_v := shuf v (set1 4 8 0x0c080400) in
  let low := extracti128 shuffled_v 0 in
  let high := extracti128 shuffled_v 1 in
  match residual_rows with
  | 1 => store_bytes t (pick 1 v [0%nat]) p b
  | 2 => store_bytes t (low_bytes 2 low) p b
  | 3 => b <- store_bytes t (low_bytes 2 low) p b ;; store_bytes t (pick 1 low [2%nat]) (p + 2) b
  | 4 => store_bytes t (low_bytes 4 low) p b
  | 5 => b <- store_bytes t (low_bytes 4 low) p b ;; store_bytes t (pick 1 shuffled_v [16%nat]) (p + 4) b
  | 6 => b <- store_bytes t (low_bytes 4 low) p b ;; store_bytes t (low_bytes 2 high) (p + 4) b
  | 7 => b <- store_bytes t (low_bytes 4 low) p b ;;
         b <- store_bytes t (low_bytes 2 high) (p + 4) b ;;
         store_bytes t (pick 1 high [2%nat]) (p + 6) b
  | 8 => b <- store_bytes t (low_bytes 4 low) p b ;; store_bytes t (low_bytes 4 high) (p + 4) b
  | _ => Ok b
  end.

(** kernel_x86.h:405-430. *)
Definition storeu_cvtepi32_epi8 (shuf : vec -> vec -> vec) (t : ity) (v : vec) (p : Z) (b : buf Z) : res (buf Z) :=
  let shuffled_v := shuf v (set1 4 8 0x0c080400) in
  b <- store_bytes t (low_bytes 4 (extracti128 shuffled_v 0)) p b ;;
  store_bytes t (low_bytes 4 (extracti128 shuffled_v 1)) (p + 4) b.

(** kernel_x86.h:432-484. *)
Definition n_storeu_cvtepi32_epi16 (shuf : vec -> vec -> vec) (t : ity) (residual_rows : Z) (v : vec)
    (p : Z) (b : buf Z) : res (buf Z) :=
  let shuffled_v := shuf v (set1 8 4 0x0d0c090805040100) in
  let low := if 1 <? residual_rows then extracti128 shuffled_v 0 else extracti128 v 0 in
  let high := extracti128 shuffled_v 1 in
  match residual_rows with
  | 1 => store_bytes t (low_bytes 2 low) p b
  | 2 => store_bytes t (low_bytes 4 low) p b
  | 3 => b <- store_bytes t (low_bytes 4 low) p b ;; store_bytes t (pick 2 low [2%nat]) (p + 2) b
  | 4 => store_bytes t (low_bytes 8 low) p b
  | 5 => b <- store_bytes t (low_bytes 8 low) p b ;; store_bytes t (pick 2 shuffled_v [8%nat]) (p + 4) b
  | 6 => b <- store_bytes t (low_bytes 8 low) p b ;; store_bytes t (low_bytes 4 high) (p + 4) b
  | 7 => b <- store_bytes t (low_bytes 8 low) p b ;;
         b <- store_bytes t (low_bytes 4 high) (p + 4) b ;;
         store_bytes t (pick 2 high [2%nat]) (p + 6) b
  | 8 => b <- store_bytes t (low_bytes 8 (extracti128 shuffled_v 0)) p b ;; store_bytes t (low_bytes 8 high) (p + 4) b
  | _ => Ok b
  end.

(** kernel_x86.h:486-496. *)
Definition storeu_cvtepi32_epi16 (shuf : vec -> vec -> vec) (t : ity) (v : vec) (p : Z) (b : buf Z) : res (buf Z) :=
  let shuffled_v := shuf v (set1 8 4 0x0d0c090805040100) in
  b <- store_bytes t (low_bytes 8 (extracti128 shuffled_v 0)) p b ;;
  store_bytes t (low_bytes 8 (extracti128 shuffled_v 1)) (p + 4) b.

(** kernel_x86.h:498-540. *)
Definition n_storeu_epi32 (t : ity) (residual_rows : Z) (v : vec) (p : Z) (b : buf Z) : res (buf Z) :=
  let low := extracti128 v 0 in
  let high := extracti128 v 1 in
  match residual_rows with
  | 1 => store_bytes t (low_bytes 4 low) p b
  | 2 => store_bytes t (low_bytes 8 low) p b
  | 3 => b <- store_bytes t (low_bytes 8 low) p b ;; store_bytes t (pick 4 low [2%nat]) (p + 2) b
  | 4 => store_bytes t low p b
  | 5 => b <- store_bytes t low p b ;; store_bytes t (pick 4 v [4%nat]) (p + 4) b
  | 6 => b <- store_bytes t low p b ;; store_bytes t (low_bytes 8 high) (p + 4) b
  | 7 => b <- store_bytes t low p b ;;
         b <- store_bytes t (low_bytes 8 high) (p + 4) b ;;
         store_bytes t (pick 4 high [2%nat]) (p + 6) b
  | 8 => store_bytes t v p b
  | _ => Ok b
  end.

(** The choice by destination type at the end of the kernels; other types do not exist
    (DstTypeId, kernel_common.h:58-92). *)
Definition avx_store (shuf : vec -> vec -> vec) (t : ity) (residual_rows : Z) (v : vec) (p : Z) (b : buf Z) : res (buf Z) :=
  if it_bits t =? 8 then n_storeu_cvtepi32_epi8 shuf t residual_rows v p b
  else if it_bits t =? 16 then n_storeu_cvtepi32_epi16 shuf t residual_rows v p b
  else n_storeu_epi32 t residual_rows v p b.
Definition avx_store_full (shuf : vec -> vec -> vec) (t : ity) (v : vec) (p : Z) (b : buf Z) : res (buf Z) :=
  if it_bits t =? 8 then storeu_cvtepi32_epi8 shuf t v p b
  else if it_bits t =? 16 then storeu_cvtepi32_epi16 shuf t v p b
  else store_bytes t v p b.

(** ** Transposition, kernel_x86.h:548-597 *)
Definition transpose8x8 (vs : list vec) : list vec :=
  match vs with
  | [v0; v1; v2; v3; v4; v5; v6; v7] =>
    let t2x2_0 := unpacklo_epi32 v0 v1 in
    let t2x2_1 := unpackhi_epi32 v0 v1 in
    let t2x2_2 := unpacklo_epi32 v2 v3 in
    let t2x2_3 := unpackhi_epi32 v2 v3 in
    let t2x2_4 := unpacklo_epi32 v4 v5 in
    let t2x2_5 := unpackhi_epi32 v4 v5 in
    let t2x2_6 := unpacklo_epi32 v6 v7 in
    let t2x2_7 := unpackhi_epi32 v6 v7 in
    let t4x4_0 := shuffle_ps t2x2_0 t2x2_2 0x44 in
    let t4x4_1 := shuffle_ps t2x2_0 t2x2_2 0xee in
    let t4x4_2 := shuffle_ps t2x2_1 t2x2_3 0x44 in
    let t4x4_3 := shuffle_ps t2x2_1 t2x2_3 0xee in
    let t4x4_4 := shuffle_ps t2x2_4 t2x2_6 0x44 in
    let t4x4_5 := shuffle_ps t2x2_4 t2x2_6 0xee in
    let t4x4_6 := shuffle_ps t2x2_5 t2x2_7 0x44 in
    let t4x4_7 := shuffle_ps t2x2_5 t2x2_7 0xee in
    [permute2x128 t4x4_0 t4x4_4 0x20; permute2x128 t4x4_1 t4x4_5 0x20;
     permute2x128 t4x4_2 t4x4_6 0x20; permute2x128 t4x4_3 t4x4_7 0x20;
     permute2x128 t4x4_0 t4x4_4 0x31; permute2x128 t4x4_1 t4x4_5 0x31;
     permute2x128 t4x4_2 t4x4_6 0x31; permute2x128 t4x4_3 t4x4_7 0x31]
  | _ => vs
  end.

(** kernel_avx2_fma.cc:452-463, 518-534, kernel_avx.cc:822-833, 900-918: the multiplier applied
    to each accumulator, between two transpositions if the channels are columns. *)
Definition avx_requantize (apply : vec -> vec -> Z -> vec -> vec) (per_column : bool) (m e : vec) (zp : Z)
    (accums : list vec) : list vec :=
  let accums := if per_column then transpose8x8 accums else accums in
  let accums := map (apply m e zp) accums in
  if per_column then transpose8x8 accums else accums.

(** ** AVX2, kernel_avx2_fma.cc *)

(** 105-110, 156-157. *)
Definition splitter_idx : vec :=
  [0; 1; 4; 5; 8; 9; 12; 13; 2; 3; 6; 7; 10; 11; 14; 15;
   0; 1; 4; 5; 8; 9; 12; 13; 2; 3; 6; 7; 10; 11; 14; 15].

(** 284-299: lhs_16_bit_low and lhs_16_bit_high. *)
Definition avx2_split_lhs (lhs_data : vec) : vec * vec :=
  let lhs_data_split := shuffle_epi8 lhs_data splitter_idx in
  let bottom := cvtepi8_epi16 (extracti128 lhs_data_split 0) in
  let top := cvtepi8_epi16 (extracti128 lhs_data_split 1) in
  (permute2x128 bottom top 0x20, permute2x128 bottom top 0x31).

(** 258-283: the RHS as 16-bit numbers in memory. *)
Definition avx2_rhs_data (rhs_size : Z) (rhs : vec) : vec :=
  if rhs_size =? 1 then cvtepi8_epi16 (extracti128 rhs 0) ++ cvtepi8_epi16 (extracti128 rhs 1) else rhs.

(** 301-347: the registers multiplied for each column. *)
Definition avx2_columns (rhs_data : vec) : list (vec * vec) :=
  let rhs0 := extracti256 rhs_data 0 in
  let rhs1 := extracti256 rhs_data 1 in
  let rhs0_3 := permute2x128 rhs0 rhs0 0 in
  let rhs4_7 := permute2x128 rhs0 rhs0 0x11 in
  let rhs8_11 := permute2x128 rhs1 rhs1 0 in
  let rhs12_15 := permute2x128 rhs1 rhs1 0x11 in
  [(shuffle_epi32 rhs0_3 0, shuffle_epi32 rhs0_3 0x55);
   (shuffle_epi32 rhs0_3 0xaa, shuffle_epi32 rhs0_3 0xff);
   (shuffle_epi32 rhs4_7 0, shuffle_epi32 rhs4_7 0x55);
   (shuffle_epi32 rhs4_7 0xaa, shuffle_epi32 rhs4_7 0xff);
   (shuffle_epi32 rhs8_11 0, shuffle_epi32 rhs8_11 0x55);
   (shuffle_epi32 rhs8_11 0xaa, shuffle_epi32 rhs8_11 0xff);
   (shuffle_epi32 rhs12_15 0, shuffle_epi32 rhs12_15 0x55);
   (shuffle_epi32 rhs12_15 0xaa, shuffle_epi32 rhs12_15 0xff)].

(** 313-319. *)
Definition mul_add_column (low_high dup : vec * vec) (accum : vec) : vec :=
  add_epi32 (add_epi32 accum (madd_epi16 (fst low_high) (fst dup))) (madd_epi16 (snd low_high) (snd dup)).

Definition avx2_step (rhs_size : Z) (lhs_data rhs : vec) (accums : list vec) : list vec :=
  map2 (mul_add_column (avx2_split_lhs lhs_data)) (avx2_columns (avx2_rhs_data rhs_size rhs)) accums.

(** 823-878: one column. mm_loadu_si32 fills a 128-bit register with zeros, the 128-bit
    cvtepi8_epi16 converts its low half, and 8 bytes are kept. *)
Definition avx2_rhs_data1 (rhs_size : Z) (rhs : vec) : vec :=
  if rhs_size =? 1 then low_bytes 8 (cvtepi8_epi16 (low_bytes 8 (rhs ++ setzero 12))) else rhs.
Definition dup_pair (lanes : nat) (rhs_data : vec) (j : nat) : vec * vec :=
  (set1 4 lanes (nth (2 * j) (slanes 4 rhs_data) 0), set1 4 lanes (nth (2 * j + 1) (slanes 4 rhs_data) 0)).
Definition avx2_step1 (rhs_size : Z) (lhs_data rhs accum : vec) : vec :=
  mul_add_column (avx2_split_lhs lhs_data) (dup_pair 8 (avx2_rhs_data1 rhs_size rhs) 0) accum.

(** 220-251: _mm256_permutevar8x32_epi32 (bias_data, set1 (j)). *)
Definition avx2_bias_col (bias : vec) (j : Z) : vec := permutevar8x32 bias (set1 4 8 j).

Definition avx2 : isa := {|
  v_n := 8; v_align := 32;
  v_add := add_epi32; v_sub := sub_epi32; v_mullo := mullo_epi32; v_min := min_epi32; v_max := max_epi32;
  v_bias_col := avx2_bias_col;
  v_step := avx2_step;
  v_load1 := fun _ => 4;
  v_trailing := true;
  v_step1 := avx2_step1;
  v_requant := avx_requantize avx2_apply_multiplier;
  v_requant1 := avx2_apply_multiplier;
  v_store_full := avx_store_full shuffle_epi8;
  v_store := avx_store shuffle_epi8
|}.

(** ** AVX, kernel_avx.cc *)

(** 63-73. *)
Definition avx_mm256_shuffle_epi8 := avx_halves2 shuffle_epi8.
(** 89-94; the 128-bit cvtepi8_epi16 converts the low half. *)
Definition avx_mm_cvtepi8_epi16 (a : vec) : vec := cvtepi8_epi16 (low_bytes 8 a).
Definition avx_mm256_cvtepi8_epi16 (a : vec) : vec :=
  let hi := unpackhi_epi64 a (setzero 16) in
  set_m128i (avx_mm_cvtepi8_epi16 hi) (avx_mm_cvtepi8_epi16 a).
(** 104-130. *)
Definition avx_mm_permute_helper (a b : vec) (imm : Z) : vec :=
  if Z.land imm 8 =? 0 then
    match Z.land imm 3 with
    | 0 => extracti128 a 0 | 1 => extracti128 a 1 | 2 => extracti128 b 0 | _ => extracti128 b 1
    end
  else setzero 16.
Definition avx_mm256_permute2x128 (a b : vec) (imm : Z) : vec :=
  let lo := avx_mm_permute_helper a b (Z.land imm 15) in
  let hi := avx_mm_permute_helper a b (Z.land (Z.shiftr imm 4) 15) in
  set_m128i hi lo.
(** 215-219. *)
Definition avx_mm256_shuffle_epi32 (a : vec) (imm : Z) : vec :=
  set_m128i (shuffle_epi32 (extracti128 a 1) imm) (shuffle_epi32 (extracti128 a 0) imm).

(** 626-645. *)
Definition avx_split_lhs (lhs_data : vec) : vec * vec :=
  let lhs_data_split := avx_mm256_shuffle_epi8 lhs_data splitter_idx in
  let bottom := avx_mm256_cvtepi8_epi16 (extracti128 lhs_data_split 0) in
  let top := avx_mm256_cvtepi8_epi16 (extracti128 lhs_data_split 1) in
  (avx_mm256_permute2x128 bottom top 0x20, avx_mm256_permute2x128 bottom top 0x31).

(** 606-624. There is no 16-bit RHS. *)
Definition avx_rhs_data (rhs : vec) : vec :=
  avx_mm256_cvtepi8_epi16 (extracti128 rhs 0) ++ avx_mm256_cvtepi8_epi16 (extracti128 rhs 1).

(** 647-657, 684-713. *)
Definition avx_columns (rhs_data : vec) : list (vec * vec) :=
  let rhs0 := extracti256 rhs_data 0 in
  let rhs1 := extracti256 rhs_data 1 in
  let rhs0_3 := permute2x128 rhs0 rhs0 0 in
  let rhs4_7 := permute2x128 rhs0 rhs0 0x11 in
  let rhs8_11 := permute2x128 rhs1 rhs1 0 in
  let rhs12_15 := permute2x128 rhs1 rhs1 17 in
  [(avx_mm256_shuffle_epi32 rhs0_3 0, avx_mm256_shuffle_epi32 rhs0_3 0x55);
   (avx_mm256_shuffle_epi32 rhs0_3 0xaa, avx_mm256_shuffle_epi32 rhs0_3 0xff);
   (avx_mm256_shuffle_epi32 rhs4_7 0, avx_mm256_shuffle_epi32 rhs4_7 0x55);
   (avx_mm256_shuffle_epi32 rhs4_7 0xaa, avx_mm256_shuffle_epi32 rhs4_7 0xff);
   (avx_mm256_shuffle_epi32 rhs8_11 0, avx_mm256_shuffle_epi32 rhs8_11 0x55);
   (avx_mm256_shuffle_epi32 rhs8_11 0xaa, avx_mm256_shuffle_epi32 rhs8_11 0xff);
   (avx_mm256_shuffle_epi32 rhs12_15 0, avx_mm256_shuffle_epi32 rhs12_15 0x55);
   (avx_mm256_shuffle_epi32 rhs12_15 0xaa, avx_mm256_shuffle_epi32 rhs12_15 0xff)].

(** 659-682: process_column. *)
Definition avx_mul_add_column (low_high dup : vec * vec) (accum : vec) : vec :=
  let accum_lo := extracti128 accum 0 in
  let accum_hi := extracti128 accum 1 in
  let lo_0 := madd_epi16 (extracti128 (fst low_high) 0) (extracti128 (fst dup) 0) in
  let lo_1 := madd_epi16 (extracti128 (fst low_high) 1) (extracti128 (fst dup) 1) in
  let accum_lo := add_epi32 accum_lo lo_0 in
  let accum_hi := add_epi32 accum_hi lo_1 in
  let hi_0 := madd_epi16 (extracti128 (snd low_high) 0) (extracti128 (snd dup) 0) in
  let hi_1 := madd_epi16 (extracti128 (snd low_high) 1) (extracti128 (snd dup) 1) in
  let accum_lo := add_epi32 accum_lo hi_0 in
  let accum_hi := add_epi32 accum_hi hi_1 in
  set_m128i accum_hi accum_lo.

Definition avx_step (rhs_size : Z) (lhs_data rhs : vec) (accums : list vec) : list vec :=
  map2 (avx_mul_add_column (avx_split_lhs lhs_data)) (avx_columns (avx_rhs_data rhs)) accums.

(** 1254-1303. *)
Definition avx_rhs_data1 (rhs : vec) : vec := low_bytes 8 (avx_mm_cvtepi8_epi16 (rhs ++ setzero 12)).
Definition avx_step1 (rhs_size : Z) (lhs_data rhs accum : vec) : vec :=
  let low_high := avx_split_lhs lhs_data in
  let dup := dup_pair 8 (avx_rhs_data1 rhs) 0 in
  let accum := avx_mm256_add_epi32 accum (avx_mm256_madd_epi16 (fst low_high) (fst dup)) in
  avx_mm256_add_epi32 accum (avx_mm256_madd_epi16 (snd low_high) (snd dup)).

(** 377-381: the bias of column j in all lanes. *)
Definition avx_bias_col (bias : vec) (j : Z) : vec := set1 4 8 (nth (Z.to_nat j) (slanes 4 bias) 0).

Definition avx : isa := {|
  v_n := 8; v_align := 32;
  v_add := avx_mm256_add_epi32; v_sub := avx_mm256_sub_epi32; v_mullo := avx_mm256_mullo_epi32;
  v_min := avx_mm256_min_epi32; v_max := avx_mm256_max_epi32;
  v_bias_col := avx_bias_col;
  v_step := avx_step;
  v_load1 := fun _ => 4;
  v_trailing := true;
  v_step1 := avx_step1;
  v_requant := avx_requantize avx_apply_multiplier;
  v_requant1 := avx_apply_multiplier;
  v_store_full := avx_store_full avx_mm256_shuffle_epi8;
  v_store := avx_store avx_mm256_shuffle_epi8
|}.

(** ** AVX-512, kernel_avx512.cc *)

(** cvtepi32_epi16, cvtepi32_epi8: truncation of the lanes. *)
Definition cvtepi32_epi16 (a : vec) : vec := of_lanes 2 (slanes 4 a).
Definition cvtepi32_epi8 (a : vec) : vec := of_lanes 1 (slanes 4 a).

(** 279-285. *)
Definition avx512_split_lhs (lhs_data : vec) : vec * vec :=
  (cvtepi8_epi16 (cvtepi32_epi16 lhs_data), cvtepi8_epi16 (cvtepi32_epi16 (srli 4 lhs_data 16))).

(** 253-277. *)
Definition avx512_rhs_data (rhs_size : Z) (rhs : vec) : vec :=
  if rhs_size =? 1 then cvtepi8_epi16 (extracti256 rhs 0) ++ cvtepi8_epi16 (extracti256 rhs 1) else rhs.

(** 286-312. *)
Definition avx512_step (rhs_size : Z) (lhs_data rhs : vec) (accums : list vec) : list vec :=
  map2 (mul_add_column (avx512_split_lhs lhs_data))
    (map (dup_pair 16 (avx512_rhs_data rhs_size rhs)) (seq 0 16)) accums.

(** 697-743: one column; 16 bytes are loaded, the low 8 converted, and 4 numbers kept. *)
Definition avx512_rhs_data1 (rhs_size : Z) (rhs : vec) : vec :=
  if rhs_size =? 1 then low_bytes 8 (cvtepi8_epi16 (low_bytes 8 rhs)) else rhs.
Definition avx512_step1 (rhs_size : Z) (lhs_data rhs accum : vec) : vec :=
  mul_add_column (avx512_split_lhs lhs_data) (dup_pair 16 (avx512_rhs_data1 rhs_size rhs) 0) accum.

(** 192-247. *)
Definition avx512_bias_col (bias : vec) (j : Z) : vec := permutexvar_epi32 (set1 4 16 j) bias.

(** 385-504. *)
Definition avx512_requantize (per_column : bool) (m e : vec) (zp : Z) (accums : list vec) : list vec :=
  if per_column then map2 (avx512_apply_multiplier_col m e zp) (zseq 0 16) accums
  else map (avx512_apply_multiplier m e zp) accums.

(** The lanes whose bit of the mask is set. *)
Fixpoint mask_write (mask : Z) (i : Z) (l : list Z) (off : Z) (b : buf Z) : res (buf Z) :=
  match l with
  | [] => Ok b
  | x :: l =>
    b <- (if Z.testbit mask i then bwrite b (off + i) x else Ok b) ;;
    mask_write mask (i + 1) l off b
  end.
(** mask_storeu_epi8, mask_storeu_epi16, mask_storeu_epi32. *)
Definition mask_storeu (t : ity) (mask : Z) (v : vec) (p : Z) (b : buf Z) : res (buf Z) :=
  mask_write mask 0 (map (fun c => it_conv t (of_bytes c)) (chunks (Z.to_nat (it_size t)) v)) p b.

(** The truncation to the destination type. *)
Definition avx512_narrow (t : ity) (v : vec) : vec :=
  if it_bits t =? 8 then cvtepi32_epi8 v else if it_bits t =? 16 then cvtepi32_epi16 v else v.

(** 115-116, 534-616: row_mask is (static_cast<std::uint32_t>(1) << residual_rows) - 1, a mask of 16 bits;
    a negative count is undefined. *)
Definition avx512_store (t : ity) (residual_rows : Z) (v : vec) (p : Z) (b : buf Z) : res (buf Z) :=
  if (0 <=? residual_rows) && (residual_rows <? 32)
  then mask_storeu t (wrap_u 16 (2 ^ residual_rows - 1)) (avx512_narrow t v) p b
  else UB.
(** 534-616. *)
Definition avx512_store_full (t : ity) (v : vec) (p : Z) (b : buf Z) : res (buf Z) :=
  store_bytes t (avx512_narrow t v) p b.

Definition avx512 : isa := {|
  v_n := 16; v_align := 1;
  v_add := add_epi32; v_sub := sub_epi32; v_mullo := mullo_epi32; v_min := min_epi32; v_max := max_epi32;
  v_bias_col := avx512_bias_col;
  v_step := avx512_step;
  v_load1 := fun rhs_size => if rhs_size =? 1 then 16 else 4;
  v_trailing := false;
  v_step1 := avx512_step1;
  v_requant := avx512_requantize;
  v_requant1 := avx512_apply_multiplier;
  v_store_full := avx512_store_full;
  v_store := avx512_store
|}.
