(** What the 8-bit kernels for AArch64 take and store. *)
From Coq Require Import ZArith List.
From Verif Require Import Base SidePair Mat Scalars Pack IntOps MulParams SpecRound SpecMatrix SpecPack SpecMul SpecSimd SpecPackX86 SpecKernel.
Import ListNotations.
Open Scope Z_scope.

(** What is stored for the accumulator [acc]: modulo 2^32 for int32; else rounded once, offset and clamped. *)
Definition neon_result (dt : ity) (mp : mul_params Z) (dst_zp i j acc v : Z) : Prop :=
  if ity_eqb dt s32 then v = wrap_s 32 acc
  else exists q, rounded_once acc (multiplier_at mp i j) (exponent_at mp i j) q /\ clamped (mp_min mp) (mp_max mp) (q + dst_zp) v.

(** Sums that are there cover the packed columns: these kernels read them even if they are multiplied by 0. *)
Definition sums_cover (p : pmat Z) : Prop := forall b, p_sums p = Some b -> pl_cols (p_layout p) <= blen b.

(** A call of a kernel with blocks of [n] rows and columns. *)
Record neon_call (n : Z) (dt : ity) (lp rp : pmat Z) (L R : Z -> Z -> Z) (mp : mul_params Z)
    (sr sc er ec : Z) (dl : mat_layout) (dst_zp : Z) (dst : buf Z) : Prop := {
  nc_call : vector_call n s8 dt lp rp L R mp sr sc er ec dl dst;
  (** the loops over the depth load before they compare *)
  nc_depth : 0 < pl_rows (p_layout lp);
  nc_lhs_sums : sums_cover lp;
  nc_rhs_sums : sums_cover rp;
  (** int32 results are recognized only in the presence of sums of the left-hand side *)
  nc_int32 : dt = s32 -> p_sums lp <> None;
  nc_bounds : dt <> s32 -> mp_min mp <= mp_max mp;
  nc_zero_point : dt <> s32 -> it_lo dt <= dst_zp <= it_hi dt;
  nc_dst : typed dt dst
}.
