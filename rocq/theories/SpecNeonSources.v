(** Calls of kNeon's kernel for one destination column on operands that kNeon's functions have packed. *)
From Coq Require Import ZArith List.
From Verif Require Import Base SidePair Mat Scalars Pack IntOps MulParams SpecRound SpecMatrix SpecPack SpecMul SpecSimd SpecPackX86 SpecKernel SpecKernelNeon SpecNeonSums SpecNeonCol4.
Import ListNotations.
Open Scope Z_scope.

(** The columns [la, lb) of [lsrc] and [0, 4) of [rsrc] have been packed into [l] and [r]; the rows [sr, er) of the destination are asked for. *)
Record sources_call (dt lst rst : ity) (lsrc rsrc : mat Z) (lp rp : pmat Z) (la lb : Z) (l r : pmat Z) (mp : mul_params Z)
    (sr er : Z) (dl : mat_layout) (dst_zp : Z) (dst : buf Z) : Prop := {
  so_lhs : neon_operand lst lsrc lp la lb l;
  so_rhs : neon_operand rst rsrc rp 0 4 r;
  so_depth : pl_rows (p_layout rp) = pl_rows (p_layout lp);
  so_sizes : ml_rows dl = ml_cols (m_layout lsrc) /\ ml_cols dl = 1 /\ ml_cols (m_layout rsrc) = 1;
  so_rows : la <= sr < er /\ er <= lb /\ (4 | sr) /\ (4 | er) /\ er - 4 < ml_rows dl;
  (** a side has sums where the other one has a zero point, the left-hand side also for int32 *)
  so_sums : (p_zp rp <> 0 \/ dt = s32 -> p_sums lp <> None) /\ (p_zp lp <> 0 -> p_sums rp <> None);
  so_zero_points : is_i32 (p_zp lp * p_zp rp) /\ is_i32 (p_zp lp * p_zp rp * pl_rows (p_layout lp));
  so_dst : dt = u8 \/ dt = s8 \/ dt = s16 \/ dt = s32;
  so_layout : valid_layout dl /\ ml_order dl = ColMajor /\ ml_stride dl * ml_cols dl <= blen dst;
  so_params : mp_chan mp = ChRow /\ params_cover dt mp er;
  so_bounds : it_lo dt <= mp_min mp <= it_hi dt /\ it_lo dt <= mp_max mp <= it_hi dt;
  so_min_max : dt <> s32 -> mp_min mp <= mp_max mp;
  so_zero_point : dt <> s32 -> it_lo dt <= dst_zp <= it_hi dt;
  so_dst_bytes : 4 * (it_bits dt / 8 * ml_stride dl) <= int_max;
  so_typed : typed dt dst
}.

(** The sources hold values of their types, and the packed matrices have the zero points of the sources, as packed. *)
Definition matching_sources (lst rst : ity) (lsrc rsrc : mat Z) (lp rp : pmat Z) : Prop :=
  values_of lst lsrc /\ values_of rst rsrc /\ p_zp lp = m_zp lsrc - middle lst /\ p_zp rp = m_zp rsrc - middle rst /\
  ml_rows (m_layout rsrc) = ml_rows (m_layout lsrc).

(** The accumulator of an entry in terms of the sources, which have the depth as their rows. *)
Definition source_accumulator (lsrc rsrc : mat Z) (mp : mul_params Z) (i j : Z) : Z :=
  zsum (map (fun k => (entry lsrc k i - m_zp lsrc) * (entry rsrc k j - m_zp rsrc)) (zrange 0 (ml_rows (m_layout lsrc)))) + bias_at mp i j.

(** Pairs of levels, eight apart, that are both below the last row of a source with [n] rows. *)
Definition padding_pairs (n : Z) : Z := if n mod 16 =? 0 then 0 else Z.max 0 (8 - n mod 16).
