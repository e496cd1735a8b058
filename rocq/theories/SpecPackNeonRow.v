(** A call that packs columns of a row-major matrix of bytes for the AArch64 dot-product kernels. *)
From Coq Require Import ZArith List Bool.
From Verif Require Import Base SidePair Mat Scalars IntOps Pack SpecMatrix SpecPack SpecPackX86 SpecPackNeon.
Open Scope Z_scope.

(** Whole blocks of columns, at least one, of a packed matrix made for the source, whose zero point is the packed one of the source.
    There are sums, and the memory holds values of its type. *)
Definition neon_row_call (st : ity) (src : mat Z) (p : pmat Z) (a b : Z) : Prop :=
  valid_matrix src /\ ml_order (m_layout src) = RowMajor /\ packed_for src bytes_4x8 p /\
  p_zp p = it_conv s8 (m_zp src - middle st) /\ typed s8 (p_data p) /\ (exists s, p_sums p = Some s /\ typed s32 s) /\
  0 <= a < b /\ b <= pl_cols (p_layout p) /\ (8 | a) /\ (8 | b).
