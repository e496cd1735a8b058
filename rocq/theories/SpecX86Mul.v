(** What a multiplication on the x86 paths takes and gives. *)
From Coq Require Import ZArith.
From Verif Require Import Base SidePair Mat Scalars IntOps MulParams SpecArith SpecRound SpecMatrix SpecMul SpecSimd SpecPackX86 SpecKernel TrMulRun X86Mul.
Open Scope Z_scope.

(** Unsigned bytes are packed as signed ones. *)
Definition vector_types (st : sp ity) : sp ity :=
  mk_sp (if ity_eqb (lhs st) u8 then s8 else lhs st) (if ity_eqb (rhs st) u8 then s8 else rhs st).

(** The types of the operands for which there are specialised kernels: two of bytes, or one of bytes and one of int16;
    the one of int16 is on the right, or on the left if the destination is row-major. *)
Definition bytes (t : ity) : Prop := t = s8 \/ t = u8.
Definition vector_operands (p : x86_path) (d : order) (st : sp ity) : Prop :=
  let '(a, b) := match d with ColMajor => (lhs st, rhs st) | RowMajor => (rhs st, lhs st) end in
  bytes a /\ (bytes b \/ (b = s16 /\ p <> PathAvx)).

(** Blocks of the specialised kernels. *)
Definition vector_blocks (p : x86_path) : sp kernel_layout :=
  let k := blocks_of (match p with PathAvx512 => 16 | _ => 8 end) in mk_sp k k.

Record vector_mul (c : config) (p : x86_path) (st : sp ity) (dt : ity) (l r dst : mat Z) (mp : mul_params Z) : Prop := {
  vm_call : valid_call c (int_ops checked (c_dbg c) st (vector_types st) dt) (vector_blocks p) l r dst mp;
  vm_types : vector_operands p (ml_order (m_layout dst)) st;
  vm_values : values_of (lhs st) l /\ values_of (rhs st) r;
  vm_dst : dt = u8 \/ dt = s8 \/ dt = s16 \/ dt = s32;
  (** column sums fit in an int32 *)
  vm_depth : forall s D, is_round_up (ml_rows (m_layout r)) 4 D -> D * max_abs (get s (vector_types st)) <= int_max;
  (** and so does the product of the zero points and the depth *)
  vm_zero_points : forall D, is_round_up (ml_rows (m_layout r)) 4 D ->
    is_i32 ((m_zp l - middle (lhs st)) * (m_zp r - middle (rhs st)) * D);
  vm_bounds : valid_bounds dt mp;
  vm_multipliers : if mp_perchannel mp then
      dt <> s32 /\ exists m e, mp_mult_pc mp = Some m /\ mp_exp_pc mp = Some e /\
        forall i, 0 <= i < channel_count mp (m_layout dst) -> fixed_point (bdat m i) /\ exponent (bdat e i)
    else dt <> s32 -> fixed_point (mp_mult mp) /\ exponent (mp_exp mp);
  (** offsets in bytes are computed as int32 *)
  vm_dst_bytes : match p with PathAvx512 => 16 | _ => 8 end * (it_bits dt / 8 * ml_stride (m_layout dst)) <= int_max
}.

(** Fresh packed matrices hold bytes, or int16s. *)
Definition vector_garbage (d : order) (st : sp ity) (g : garbage Z) : Prop :=
  forall s i, let t := get (match d with ColMajor => s | RowMajor => other_side s end) (vector_types st) in
    it_lo t <= g_packed g s i <= it_hi t.

(** [out] is the product: every entry is what the kernels make of the exact accumulator; the rest is as before. *)
Definition vector_product (dt : ity) (l r : mat Z) (mp : mul_params Z) (dst out : mat Z) : Prop :=
  m_layout out = m_layout dst /\ m_zp out = m_zp dst /\ blen (m_data out) = blen (m_data dst) /\
  (forall i j, in_matrix (m_layout dst) i j -> vector_result dt mp (m_zp dst) i j (exact_acc l r mp i j) (entry out i j)) /\
  (forall q, (forall i j, in_matrix (m_layout dst) i j -> q <> position (m_layout dst) i j) -> bdat (m_data out) q = bdat (m_data dst) q).
