(** What a multiplication of bytes with AArch64's dot products takes and gives. *)
From Coq Require Import ZArith.
From Verif Require Import Base SidePair Mat Scalars IntOps MulParams Pack SpecArith SpecRound SpecMatrix SpecMul SpecSimd SpecPackX86 SpecKernel SpecKernelNeon
  CpuInfo Tune NeonPack FloatNeonMul TrMulRun.
Open Scope Z_scope.

Definition byte_type (t : ity) : Prop := t = s8 \/ t = u8.
Definition dot_blocks : sp kernel_layout := mk_sp (blocks_of 8) (blocks_of 8).

(** [n] columns of stride [s]: the offset of the last four of them, the number being rounded up to a multiple of 8. *)
Definition last_four (s n : Z) : Z := s * (8 * ((n + 7) / 8) - 4).

Record dot_mul (c : config) (st : sp ity) (dt : ity) (l r dst : mat Z) (mp : mul_params Z) : Prop := {
  dm_call : valid_call c (int_ops checked (c_dbg c) st (mk_sp s8 s8) dt) dot_blocks l r dst mp;
  dm_types : byte_type (lhs st) /\ byte_type (rhs st);
  dm_values : values_of (lhs st) l /\ values_of (rhs st) r;
  dm_dst : dt = u8 \/ dt = s8 \/ dt = s16 \/ dt = s32;
  (** column sums fit in an int32 *)
  dm_depth : forall D, is_round_up (ml_rows (m_layout r)) 4 D -> D * 128 <= int_max;
  (** and so does the product of the zero points and the depth *)
  dm_zero_points : forall D, is_round_up (ml_rows (m_layout r)) 4 D ->
    is_i32 ((m_zp l - middle (lhs st)) * (m_zp r - middle (rhs st)) * D);
  dm_bounds : valid_bounds dt mp;
  dm_order : dt <> s32 -> mp_min mp <= mp_max mp;
  dm_dst_zp : dt <> s32 -> it_lo dt <= m_zp dst <= it_hi dt;
  dm_multipliers : if mp_perchannel mp then
      dt <> s32 /\ exists m e, mp_mult_pc mp = Some m /\ mp_exp_pc mp = Some e /\
        forall i, 0 <= i < channel_count mp (m_layout dst) -> fixed_point (bdat m i) /\ exponent (bdat e i)
    else dt <> s32 -> fixed_point (mp_mult mp) /\ exponent (mp_exp mp);
  (** offsets in bytes are computed as int32 *)
  dm_dst_bytes : 8 * (it_bits dt / 8 * ml_stride (m_layout dst)) <= int_max;
  dm_dst_typed : typed dt (m_data dst);
  (** the offsets of blocks of four columns are ints, even if there is no such column *)
  dm_lhs_offsets : ml_order (m_layout l) = RowMajor -> last_four (ml_stride (m_layout l)) (ml_rows (m_layout l)) <= int_max;
  dm_rhs_offsets : ml_order (m_layout r) = ColMajor -> last_four (ml_stride (m_layout r)) (ml_cols (m_layout r)) <= int_max
}.

(** Fresh packed matrices hold bytes and int32s. *)
Definition dot_garbage (g : garbage Z) : Prop :=
  forall s i, it_lo s8 <= g_packed g s i <= it_hi s8 /\ it_lo s32 <= g_sums g s i <= it_hi s32.

(** No thread computes while on an A55 or a similar core, and the upper halves of the registers that hold row and column are clear. *)
Definition dot_circumstances (ci : circumstances) : Prop :=
  forall i j, ci_tuning ci i j <> TA55ish /\ lo_upper (ci_regs ci i j) 46 mod 2 ^ 32 = 0 /\ lo_upper (ci_regs ci i j) 47 mod 2 ^ 32 = 0.

(** [out] is the product: every entry is the exact accumulator, rounded once, offset and clamped; the rest is as before. *)
Definition dot_product (dt : ity) (l r : mat Z) (mp : mul_params Z) (dst out : mat Z) : Prop :=
  m_layout out = m_layout dst /\ m_zp out = m_zp dst /\ blen (m_data out) = blen (m_data dst) /\
  (forall i j, in_matrix (m_layout dst) i j -> neon_result dt mp (m_zp dst) i j (exact_acc l r mp i j) (entry out i j)) /\
  (forall q, (forall i j, in_matrix (m_layout dst) i j -> q <> position (m_layout dst) i j) -> bdat (m_data out) q = bdat (m_data dst) q).

(** The accumulator fits in an int32 even if shifted left by one more than the exponent. *)
Definition dot_fits (acc e : Z) : Prop := is_i32 acc /\ e <= 30 /\ is_i32 (acc * 2 ^ Z.max (e + 1) 0).
