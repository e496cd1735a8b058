(** C72: one destination column on kNeon, from the matrices on. *)
From Coq Require Import ZArith List.
From Verif Require Import Base SidePair Mat Scalars Pack IntOps MulParams Kernel Kernel8bit Neon64 NeonPack NeonPackRow16 CpuInfo Tune Kernel8Neon.
From Verif Require Import SpecMatrix SpecMul SpecSimd SpecPackX86 SpecKernel SpecKernelNeon SpecNeonSums SpecNeonCol4 SpecNeonSources Kernel8bitExamples NeonDeclBad Kernel8NeonSources Kernel8NeonSourcesEx.
Import ListNotations.
Open Scope Z_scope.

(** Packing and then multiplying gives the exact sums of products, rounded, unless both factors of a product, or both zero points, are the lowest of their types. *)
Theorem C72_product : forall dbg t g tmp dt lst rst lsrc rsrc lp rp la lb l r mp sr er dl dst_zp dst,
  sources_call dt lst rst lsrc rsrc lp rp la lb l r mp sr er dl dst_zp dst -> lo_upper g 46 mod 2 ^ 32 = 0 -> lo_upper g 47 mod 2 ^ 32 = 0 ->
  matching_sources lst rst lsrc rsrc lp rp ->
  (forall i k, sr <= i < er -> in_matrix (m_layout lsrc) k i -> entry lsrc k i <> it_lo lst \/ entry rsrc k 0 <> it_lo rst) ->
  m_zp lsrc <> it_lo lst \/ m_zp rsrc <> it_lo rst ->
  exists dst', kernel_8bit_neon dbg false t g tmp dt l r mp sr 0 er 4 dl dst_zp dst = Ok dst' /\
    block_computed (fun i j => neon_result dt mp dst_zp i j (source_accumulator lsrc rsrc mp i j)) sr 0 er 4 dl dst dst'.
Proof. exact sources_exact. Qed.
Print Assumptions C72_product.

(** Any sources: pairs of products of -128 overflow, be they products of entries or of padding. *)
Theorem C72_any_sources : forall dbg t g tmp dt lst rst lsrc rsrc lp rp la lb l r mp sr er dl dst_zp dst,
  sources_call dt lst rst lsrc rsrc lp rp la lb l r mp sr er dl dst_zp dst -> lo_upper g 46 mod 2 ^ 32 = 0 -> lo_upper g 47 mod 2 ^ 32 = 0 ->
  exists dst', kernel_8bit_neon dbg false t g tmp dt l r mp sr 0 er 4 dl dst_zp dst = Ok dst' /\
    block_computed (fun i j => neon_result dt mp dst_zp i j
      (cells_accumulator (pl_rows (p_layout lp)) (p_zp lp) (p_zp rp) (packed_value lst s8 lsrc (p_zp lp)) (packed_value rst s8 rsrc (p_zp rp)) mp i j)) sr 0 er 4 dl dst dst'.
Proof. exact sources_column. Qed.
Print Assumptions C72_any_sources.

(** Both zero points lowest: every accumulator lacks 65536 for each pair of levels of padding, whatever the entries are. *)
Theorem C72_padding : forall dbg t g tmp dt lst rst lsrc rsrc lp rp la lb l r mp sr er dl dst_zp dst,
  sources_call dt lst rst lsrc rsrc lp rp la lb l r mp sr er dl dst_zp dst -> lo_upper g 46 mod 2 ^ 32 = 0 -> lo_upper g 47 mod 2 ^ 32 = 0 ->
  matching_sources lst rst lsrc rsrc lp rp ->
  (forall i k, sr <= i < er -> in_matrix (m_layout lsrc) k i -> entry lsrc k i <> it_lo lst \/ entry rsrc k 0 <> it_lo rst) ->
  m_zp lsrc = it_lo lst -> m_zp rsrc = it_lo rst ->
  exists dst', kernel_8bit_neon dbg false t g tmp dt l r mp sr 0 er 4 dl dst_zp dst = Ok dst' /\
    block_computed (fun i j => neon_result dt mp dst_zp i j (source_accumulator lsrc rsrc mp i j - 65536 * padding_pairs (ml_rows (m_layout lsrc)))) sr 0 er 4 dl dst dst'.
Proof. exact sources_lowest. Qed.
Print Assumptions C72_padding.

(** 200 * 200 of uint8 with zero points of 0, which Validate accepts: the result is -418752. *)
Theorem C72_lowest_zero_points_refuted : exists lsrc rsrc lp rp l r mp dl dst d, sources_call s32 u8 u8 lsrc rsrc lp rp 0 4 l r mp 0 4 dl 0 dst /\ matching_sources u8 u8 lsrc rsrc lp rp /\
  (forall k i, entry lsrc k i = 200 /\ entry rsrc k i = 200) /\ ml_rows (m_layout lsrc) = 1 /\ m_zp lsrc = 0 /\ m_zp rsrc = 0 /\ mp_bias mp = None /\
  kernel_8bit_neon true false TGeneric ex_leftover (fun _ => 5) s32 l r mp 0 0 4 4 dl 0 dst = Ok d /\ bdat d 0 = 200 * 200 - 7 * 65536.
Proof. exact hx_wrong. Qed.
Print Assumptions C72_lowest_zero_points_refuted.

(** Without sums of the left-hand side, int32 results are requantized and stored as bytes. *)
Theorem C72_int32_without_sums_refuted : exists lp rp L R mp dl dst d,
  packed_cells lp /\ SpecKernel.holds lp L 0 11 /\ packed_cells rp /\ SpecKernel.holds rp R 0 1 /\ pl_rows (p_layout rp) = pl_rows (p_layout lp) /\
  p_zp lp = 0 /\ p_zp rp = 0 /\ p_sums lp = None /\ typed s32 dst /\ params_cover s32 mp 12 /\ ml_cols dl = 1 /\ mp_chan mp = ChRow /\
  kernel_8bit_neon true false TGeneric ex_leftover (fun _ => 5) s32 lp rp mp 0 0 12 4 dl 0 dst = Ok d /\
  ~ block_computed (fun i j => neon_result s32 mp 0 i j (cells_accumulator (pl_rows (p_layout lp)) 0 0 L R mp i j)) 0 0 12 4 dl dst d.
Proof. exact int32_without_sums4. Qed.
Print Assumptions C72_int32_without_sums_refuted.

(** A column-major matrix of int8 and a row-major column of uint8, with results; and what C72_padding takes. *)
Example C72_call : sources_call s16 s8 u8 gx_lsrc gx_rsrc gx_lp gx_rp 4 8 gx_l gx_r gx_params 4 8 (ex_dst 7 1) 4 ex_buf.
Proof. exact gx_call. Qed.
Example C72_matching : matching_sources s8 u8 gx_lsrc gx_rsrc gx_lp gx_rp /\
  (forall i k, 4 <= i < 8 -> in_matrix (m_layout gx_lsrc) k i -> entry gx_lsrc k i <> it_lo s8 \/ entry gx_rsrc k 0 <> it_lo u8) /\ m_zp gx_rsrc <> it_lo u8.
Proof. exact gx_matching. Qed.
Example C72_values : (gx_stored, map (fun i => source_accumulator gx_lsrc gx_rsrc gx_params i 0) (zrange 4 7)) = ([99; -15258; 1833; -2694; 99; 99], [-15262; 29268; -21582]).
Proof. exact gx_values. Qed.
Example C72_padding_call : sources_call s32 u8 u8 (hx_src ColMajor) (hx_src ColMajor) hx_p hx_p 0 4 hx_q hx_q Kernel8NeonPairs.px_params 0 4 hx_layout 0 hx_dst /\ matching_sources u8 u8 (hx_src ColMajor) (hx_src ColMajor) hx_p hx_p /\ padding_pairs 1 = 7.
Proof. exact (conj hx_call (conj hx_matching eq_refl)). Qed.
