(** Calls of the kNeon kernels: operands in blocks of 16 levels and four columns. *)
From Coq Require Import ZArith List.
From Verif Require Import Base SidePair Mat Scalars Pack IntOps MulParams SpecRound SpecMatrix SpecPack SpecMul SpecSimd SpecPackX86 SpecKernel SpecKernelNeon SpecNeonSums.
Import ListNotations.
Open Scope Z_scope.

(** A call on the entries [sr, er) x [sc, ec) of the destination. *)
Record cells_call (dt : ity) (lp rp : pmat Z) (L R : Z -> Z -> Z) (mp : mul_params Z)
    (sr sc er ec : Z) (dl : mat_layout) (dst_zp : Z) (dst : buf Z) : Prop := {
  xc_lhs : packed_cells lp /\ SpecKernel.holds lp L sr (Z.min er (ml_rows dl)) /\ has_sums lp L sr (Z.min er (ml_rows dl)) (p_zp rp);
  xc_rhs : packed_cells rp /\ SpecKernel.holds rp R sc (Z.min ec (ml_cols dl)) /\ has_sums rp R sc (Z.min ec (ml_cols dl)) (p_zp lp);
  xc_depth : pl_rows (p_layout rp) = pl_rows (p_layout lp);
  xc_rows : whole_blocks 4 sr er (pl_cols (p_layout lp)) (ml_rows dl);
  xc_cols : whole_blocks 4 sc ec (pl_cols (p_layout rp)) (ml_cols dl);
  xc_dst : dt = u8 \/ dt = s8 \/ dt = s16 \/ dt = s32;
  xc_layout : valid_layout dl /\ ml_order dl = ColMajor /\ ml_stride dl * ml_cols dl <= blen dst;
  xc_params : params_cover dt mp (match mp_chan mp with ChRow => er | ChCol => ec end);
  xc_bounds : it_lo dt <= mp_min mp <= it_hi dt /\ it_lo dt <= mp_max mp <= it_hi dt;
  (** offsets in bytes computed as int32 *)
  xc_dst_bytes : 4 * (it_bits dt / 8 * ml_stride dl) <= int_max;
  xc_zero_points : is_i32 (p_zp lp * p_zp rp) /\ is_i32 (p_zp lp * p_zp rp * pl_rows (p_layout lp));
  xc_lhs_sums : sums_cover lp;
  xc_rhs_sums : sums_cover rp;
  (** int32 results are recognized only in the presence of sums of the left-hand side *)
  xc_int32 : dt = s32 -> p_sums lp <> None;
  xc_min_max : dt <> s32 -> mp_min mp <= mp_max mp;
  xc_zero_point : dt <> s32 -> it_lo dt <= dst_zp <= it_hi dt;
  xc_typed : typed dt dst
}.

(** The accumulator of an entry where pairs of products of -128 overflow. *)
Definition cells_accumulator (depth zl zr : Z) (L R : Z -> Z -> Z) (mp : mul_params Z) (i j : Z) : Z :=
  exact_accumulator depth zl zr L R mp i j - 65536 * overflows (fun k => L k i) (fun k => R k j) depth.
