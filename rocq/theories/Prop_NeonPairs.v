(** C70: the 8-bit kernels of kNeon add pairs of products in 16 bits. *)
From Coq Require Import ZArith List Bool.
From Verif Require Import Base SidePair Mat Scalars Pack IntOps MulParams Kernel SpecArith SpecMatrix SpecPack SpecPackX86 Simd Neon64 NeonPack SpecPackNeon NeonPackExamples Tune Kernel8bit Kernel8Neon NeonKernel8Code NeonDeclBad Kernel8NeonPairs SpecNeonPairs Kernel8NeonPairsMore
  SpecKernel SpecPackNeonRow16 SpecNeonSums Kernel8NeonSums.
Import ListNotations.
Open Scope Z_scope.

(** The sum of two products of bytes in 16 bits is exact if and only if not all four factors are -128. *)
Theorem C70_pairs : forall a b c d, -128 <= a <= 127 -> -128 <= b <= 127 -> -128 <= c <= 127 -> -128 <= d <= 127 ->
  (wrap_s 16 (wrap_s 16 (a * b) + c * d) = a * b + c * d <-> ~ (a = -128 /\ b = -128 /\ c = -128 /\ d = -128)).
Proof. exact pair_exact. Qed.
Print Assumptions C70_pairs.

(** Matrices of int8, packed by kNeon's functions, whose product every one of kNeon's kernels gets wrong: of all tunings, for one
    destination column and for several. *)
Theorem C70_product_refuted : forall t cols, cols = 1 \/ cols = 4 ->
  exists lsrc rsrc lp rp l r d,
    SpecPackNeon.neon_call bytes_16x4 s8 s8 lsrc lp 0 4 /\ SpecPackNeon.neon_call bytes_16x4 s8 s8 rsrc rp 0 4 /\
    pack_neon true neon_16x4 false ex_left s8 lsrc lp 0 4 = Ok l /\ pack_neon true neon_16x4 false ex_left s8 rsrc rp 0 4 = Ok r /\
    kernel_8bit_neon true false t ex_leftover (fun _ => 5) s32 l r px_params 0 0 4 4 (px_layout cols) 0 (px_out cols) = Ok d /\
    zsum (map (fun k => entry lsrc k 0 * entry rsrc k 0) (zrange 0 16)) = 262144 /\ bdat d 0 = -262144.
Proof. exact wrong_product. Qed.
Print Assumptions C70_product_refuted.

(** The same matrices with -127 for -128 are multiplied exactly. *)
Example C70_right : map (fun t => map (fun c => px_entries (px_result (-127) t c)) [1; 4]) [TGeneric; TA55ish; TX1] = repeat [repeat 258064 4; repeat 258064 16] 3.
Proof. exact right_product. Qed.

(** Until v16 holds the sums of products of the first four rows (the first 60 instructions), for operands of any depth: the program for one
    column computes, modulo 2^32, the exact products less 65536 for every pair of levels at which all four factors are -128. Missing: the
    rest of the program, and so the blocks after the first. *)
Theorem C70_one_column_partial : forall g tmp p dst fuel,
  typed s8 (k_lhs p) -> typed s8 (k_rhs p) ->
  0 < k_depth p < 2 ^ 31 - 16 -> k_depth p mod 16 = 0 ->
  0 <= k_lhs_base p -> k_lhs_base p + 4 * k_depth p <= blen (k_lhs p) -> 0 <= k_rhs_base p -> k_rhs_base p + 4 * k_depth p <= blen (k_rhs p) ->
  (Z.to_nat (2 * k_depth p + 40) <= fuel)%nat ->
  exists s, run fuel (firstn 60 kernel8_1col) 0 (kernel8_start 4 g tmp p dst) = Ok s /\ mem s = kernel8_memory 4 p dst tmp /\
    forall i, 0 <= i < 4 -> nth (Z.to_nat i) (slanes 4 (vs s 16)) 0 =
      wrap_s 32 (packed_dot (k_lhs p) (k_lhs_base p) i (k_rhs p) (k_rhs_base p) 0 (k_depth p) -
                 65536 * lowest_pairs (k_lhs p) (k_lhs_base p) i (k_rhs p) (k_rhs_base p) 0 (k_depth p)).
Proof. exact column_products. Qed.
Print Assumptions C70_one_column_partial.

(** The same for the two programs for several columns, with four rows and four columns in v16 to v19. *)
Theorem C70_block_partial : forall g tmp p dst code len fuel, code = kernel8_neon /\ len = 157%nat \/ code = kernel8_a55 /\ len = 181%nat ->
  typed s8 (k_lhs p) -> typed s8 (k_rhs p) ->
  0 < k_depth p < 2 ^ 31 - 16 -> k_depth p mod 16 = 0 ->
  0 <= k_lhs_base p -> k_lhs_base p + 4 * k_depth p <= blen (k_lhs p) -> 0 <= k_rhs_base p -> k_rhs_base p + 4 * k_depth p <= blen (k_rhs p) ->
  (Z.to_nat (5 * k_depth p + 110) <= fuel)%nat ->
  exists s, run fuel (firstn len code) 0 (kernel8_start 4 g tmp p dst) = Ok s /\ mem s = kernel8_memory 4 p dst tmp /\
    forall i c, 0 <= i < 4 -> 0 <= c < 4 -> nth (Z.to_nat i) (slanes 4 (vs s (16 + Z.to_nat c))) 0 =
      wrap_s 32 (packed_dot (k_lhs p) (k_lhs_base p) i (k_rhs p) (k_rhs_base p) c (k_depth p) -
                 65536 * lowest_pairs (k_lhs p) (k_lhs_base p) i (k_rhs p) (k_rhs_base p) c (k_depth p)).
Proof. exact block_products. Qed.
Print Assumptions C70_block_partial.

(** Operands of 32 levels, of mixed values, as the two theorems ask; one pair of levels has only factors of -128. *)
Example C70_typed : typed s8 (k_lhs pm_params) /\ typed s8 (k_rhs pm_params).
Proof. exact pm_typed. Qed.
Example C70_values : map2 Z.sub (pm_exact 4) (pm_lanes (firstn 157 kernel8_neon) 4) = [0; 0; 0; 0; 0; 0; 0; 0; 0; 65536; 0; 0; 0; 0; 0; 0] /\
  map2 Z.sub (pm_exact 4) (pm_lanes (firstn 181 kernel8_a55) 4) = [0; 0; 0; 0; 0; 0; 0; 0; 0; 65536; 0; 0; 0; 0; 0; 0] /\
  map2 Z.sub (pm_exact 1) (pm_lanes (firstn 60 kernel8_1col) 1) = [0; 0; 0; 0].
Proof. exact pm_values. Qed.

(** The same for each of the three programs in terms of the entries of the packed operands. *)
Theorem C70_operands_partial : forall dbg g tmp dst fuel dt l r L R mp sr sc er ec dl zp p code len cols nr nc, product_program code len cols ->
  packed_cells l -> packed_cells r -> pl_rows (p_layout r) = pl_rows (p_layout l) -> four_columns l sr -> four_columns r sc ->
  nr <= 4 -> SpecKernel.holds l L sr (sr + nr) -> nc <= cols -> SpecKernel.holds r R sc (sc + nc) ->
  make_kernel_params8bit dbg 4 s8 dt l r mp sr sc er ec dl zp = Ok p -> (Z.to_nat (5 * pl_rows (p_layout l) + 110) <= fuel)%nat ->
  exists s, run fuel (firstn len code) 0 (kernel8_start 4 g tmp p dst) = Ok s /\ mem s = kernel8_memory 4 p dst tmp /\
    forall i c, 0 <= i < nr -> 0 <= c < nc -> nth (Z.to_nat i) (slanes 4 (vs s (16 + Z.to_nat c))) 0 =
      wrap_s 32 (zsum (map (fun k => L k (sr + i) * R k (sc + c)) (zrange 0 (pl_rows (p_layout l)))) -
                 65536 * overflows (fun k => L k (sr + i)) (fun k => R k (sc + c)) (pl_rows (p_layout l))).
Proof. exact operand_sums. Qed.
Print Assumptions C70_operands_partial.

(** Rows and columns that are not -128 at the same level are multiplied exactly, modulo 2^32. *)
Theorem C70_exact_partial : forall dbg g tmp dst fuel dt l r L R mp sr sc er ec dl zp p code len cols nr nc, product_program code len cols ->
  packed_cells l -> packed_cells r -> pl_rows (p_layout r) = pl_rows (p_layout l) -> four_columns l sr -> four_columns r sc ->
  nr <= 4 -> SpecKernel.holds l L sr (sr + nr) -> nc <= cols -> SpecKernel.holds r R sc (sc + nc) ->
  make_kernel_params8bit dbg 4 s8 dt l r mp sr sc er ec dl zp = Ok p -> (Z.to_nat (5 * pl_rows (p_layout l) + 110) <= fuel)%nat ->
  exists s, run fuel (firstn len code) 0 (kernel8_start 4 g tmp p dst) = Ok s /\ mem s = kernel8_memory 4 p dst tmp /\
    forall i c, 0 <= i < nr -> 0 <= c < nc -> (forall k, 0 <= k < pl_rows (p_layout l) -> L k (sr + i) <> -128 \/ R k (sc + c) <> -128) ->
      nth (Z.to_nat i) (slanes 4 (vs s (16 + Z.to_nat c))) 0 =
      wrap_s 32 (zsum (map (fun k => L k (sr + i) * R k (sc + c)) (zrange 0 (pl_rows (p_layout l))))).
Proof. exact exact_sums. Qed.
Print Assumptions C70_exact_partial.

(** In terms of the sources: matrices of int8 or uint8, column-major or row-major, packed by kNeon's functions. *)
Theorem C70_sources_partial : forall lst rst lsrc rsrc lp rp la lb ra rb l r dbg g tmp dst fuel dt mp sr sc er ec dl zp p code len cols, product_program code len cols ->
  neon_operand lst lsrc lp la lb l -> neon_operand rst rsrc rp ra rb r -> pl_rows (p_layout rp) = pl_rows (p_layout lp) ->
  (4 | sr) -> (4 | sc) -> la <= sr -> sr + 4 <= lb -> ra <= sc -> sc + 4 <= rb ->
  make_kernel_params8bit dbg 4 s8 dt l r mp sr sc er ec dl zp = Ok p -> (Z.to_nat (5 * pl_rows (p_layout lp) + 110) <= fuel)%nat ->
  exists s, run fuel (firstn len code) 0 (kernel8_start 4 g tmp p dst) = Ok s /\ mem s = kernel8_memory 4 p dst tmp /\
    forall i c, sr <= i < sr + 4 -> i < ml_cols (m_layout lsrc) -> sc <= c < sc + cols -> c < ml_cols (m_layout rsrc) ->
      let u k := packed_value lst s8 lsrc (p_zp lp) k i in let v k := packed_value rst s8 rsrc (p_zp rp) k c in
      nth (Z.to_nat (i - sr)) (slanes 4 (vs s (16 + Z.to_nat (c - sc)))) 0 =
      wrap_s 32 (zsum (map (fun k => u k * v k) (zrange 0 (pl_rows (p_layout lp)))) - 65536 * overflows u v (pl_rows (p_layout lp))).
Proof. exact source_sums. Qed.
Print Assumptions C70_sources_partial.

(** A column-major and a row-major matrix; one pair of levels has only factors of -128. *)
Example C70_calls : SpecPackNeon.neon_call bytes_16x4 s8 s8 sm_lsrc sm_lp 4 8 /\ row16_call 4 sm_rsrc sm_rp 0 4 /\ typed s8 (p_data sm_rp).
Proof. exact sm_calls. Qed.
Example C70_packed_values : map2 Z.sub (sm_exact 3) (sm_lanes kernel8_neon 157 3) = [0; 0; 0; 0; 0; 0; 0; 65536; 0] /\
  map2 Z.sub (sm_exact 3) (sm_lanes kernel8_a55 181 3) = [0; 0; 0; 0; 0; 0; 0; 65536; 0] /\ map2 Z.sub (sm_exact 1) (sm_lanes kernel8_1col 60 1) = [0; 0; 0].
Proof. exact sm_values. Qed.
