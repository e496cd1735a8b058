(** The scalar operations used by packing, kernels and the reference, as a
    record.  [V] is the union of all C++ scalar values occurring in one
    instantiation of ruy::Mul: source, packed, sums, accumulator, bias and
    destination values.  Each field stands for one C++ expression of the code; it
    may be undefined (signed overflow), so that one model covers checked 32-bit
    arithmetic, wrapping arithmetic and floating point. Nothing is assumed of
    these operations. *)
From Verif Require Import Base SidePair.

Record ops (V : Type) := {
  (** [Pack<PackedScalar>(x)], pack_common.h:57-60. *)
  o_pack : side -> V -> V;
  (** [Pack<PackedScalar, Scalar>(src.zero_point)], create_trmul_params.h:71. *)
  o_pack_zp : side -> Z -> Z;
  (** [packed_val = packed_matrix->zero_point], pack.h:122. *)
  o_of_zp : side -> Z -> V;
  (** [SumsType accum = 0], pack.h:116. *)
  o_sum0 : side -> V;
  (** [accum += packed_val], pack.h:124. *)
  o_sum_add : side -> V -> V -> res V;
  (** [AccumScalar lhs_val = Element(...)], kernel.h:215-216. *)
  o_to_acc : side -> V -> V;
  (** [AccumScalar accum = 0], kernel.h:213. *)
  o_acc0 : V;
  (** [lhs_val * rhs_val], kernel.h:217. *)
  o_mul : V -> V -> res V;
  (** [accum += ...], kernel.h:217 and 222. *)
  o_add : V -> V -> res V;
  (** [accum -= zero_point * sums[...]], kernel.h:225 and 228. The side is that of
      the sums. *)
  o_sub_zp_sum : side -> V -> Z -> V -> res V;
  (** [accum += lhs.zero_point * rhs.zero_point * depth], kernel.h:231. *)
  o_add_zp_zp_depth : V -> Z -> Z -> Z -> res V;
  (** MultiplyByQuantizedMultiplier when applicable, apply_multiplier.h:55-88. *)
  o_quant : option (V -> Z -> Z -> res V);
  (** [accum += dst->zero_point], kernel.h:234. *)
  o_add_dst_zp : V -> Z -> res V;
  (** [std::min<AccumScalar>(accum, clamp_max)], kernel.h:235. *)
  o_min : V -> V -> V;
  (** [std::max<AccumScalar>(accum, clamp_min)], kernel.h:236. *)
  o_max : V -> V -> V;
  (** [static_cast<DstScalar>(accum)], kernel.h:237. *)
  o_store : V -> V;
  (** [x - zero_point] in ReferenceMul, reference_mul.h:38. *)
  o_ref_sub_zp : side -> V -> Z -> res V;
  (** [x == 0], create_trmul_params.h:253-273. *)
  o_is_zero : V -> bool;
  (** sizeof of the source scalar, the packed scalar and the sums type (mat.h:195-226). *)
  o_src_size : side -> Z;
  o_data_size : side -> Z;
  o_sums_size : side -> Z;
  (** The condition on the zero points of lhs, rhs and dst asserted in debug
      builds by Validate (validate.h:33-75). *)
  o_validate : Z -> Z -> Z -> bool
}.
Arguments o_pack {V}. Arguments o_pack_zp {V}. Arguments o_of_zp {V}. Arguments o_sum0 {V}.
Arguments o_sum_add {V}. Arguments o_to_acc {V}. Arguments o_acc0 {V}. Arguments o_mul {V}.
Arguments o_add {V}. Arguments o_sub_zp_sum {V}. Arguments o_add_zp_zp_depth {V}.
Arguments o_quant {V}. Arguments o_add_dst_zp {V}. Arguments o_min {V}. Arguments o_max {V}.
Arguments o_store {V}. Arguments o_ref_sub_zp {V}. Arguments o_is_zero {V}. Arguments o_src_size {V}. Arguments o_data_size {V}.
Arguments o_sums_size {V}. Arguments o_validate {V}.

(** The operations with the two operands exchanged, as instantiated when the
    destination is row-major (create_trmul_params.h:473-479: rhs is passed as
    the Lhs side). The multiplication of two accumulators keeps its meaning. *)
Definition swap_ops {V} (o : ops V) : ops V := {|
  o_pack := fun s => o_pack o (other_side s);
  o_pack_zp := fun s => o_pack_zp o (other_side s);
  o_of_zp := fun s => o_of_zp o (other_side s);
  o_sum0 := fun s => o_sum0 o (other_side s);
  o_sum_add := fun s => o_sum_add o (other_side s);
  o_to_acc := fun s => o_to_acc o (other_side s);
  o_acc0 := o_acc0 o;
  o_mul := o_mul o;
  o_add := o_add o;
  o_sub_zp_sum := fun s => o_sub_zp_sum o (other_side s);
  o_add_zp_zp_depth := o_add_zp_zp_depth o;
  o_quant := o_quant o;
  o_add_dst_zp := o_add_dst_zp o;
  o_min := o_min o;
  o_max := o_max o;
  o_store := o_store o;
  o_ref_sub_zp := fun s => o_ref_sub_zp o (other_side s);
  o_is_zero := o_is_zero o;
  o_src_size := fun s => o_src_size o (other_side s);
  o_data_size := fun s => o_data_size o (other_side s);
  o_sums_size := fun s => o_sums_size o (other_side s);
  o_validate := fun l r d => o_validate o r l d |}.
