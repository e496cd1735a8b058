(** What a multiplication of floats on the x86 paths takes and gives. *)
From Coq Require Import ZArith List SpecFloat.
From Verif Require Import Base SidePair Mat Scalars FloatOps MulParams SpecMatrix SpecMul TrMulRun X86Mul SimdFloat.
Open Scope Z_scope.

(** Blocks of the specialised kernels. *)
Definition float_blocks (p : x86_path) : sp kernel_layout :=
  let k := {| kl_order := RowMajor; kl_rows := 1; kl_cols := match p with PathAvx512 => 16 | _ => 8 end |} in mk_sp k k.

Record float_vector_mul (c : config) (p : x86_path) (l r dst : mat spec_float) (mp : mul_params spec_float) : Prop := {
  fv_call : valid_call c f32_ops (float_blocks p) l r dst mp;
  (** the stride in bytes is an int32 *)
  fv_stride : 4 * ml_stride (m_layout dst) <= int_max
}.

(** What the kernels see of an entry of a matrix stored as [o]: the portable packing of kAvx loses the sign of zero. *)
Definition vector_read (p : x86_path) (o : order) (x : spec_float) : spec_float :=
  match p, o, x with PathAvx, RowMajor, S754_zero _ => S754_zero false | _, _, _ => x end.

(** One multiplication and one addition, rounded twice on kAvx and once on the others. *)
Definition vector_step (p : x86_path) (a b acc : spec_float) : spec_float :=
  match p with PathAvx => SFadd 24 128 (SFmul 24 128 a b) acc | _ => fused_mul_add 24 128 a b acc end.

(** The other order: the kernels see the left-hand side transposed. *)
Definition flipped (o : order) : order := match o with ColMajor => RowMajor | RowMajor => ColMajor end.

(** In increasing depth, starting from the bias. *)
Definition vector_dot (p : x86_path) (l r : mat spec_float) (start : spec_float) (i j : Z) : spec_float :=
  fold_left (fun acc k => vector_step p (vector_read p (flipped (ml_order (m_layout l))) (entry l i k))
                                        (vector_read p (ml_order (m_layout r)) (entry r k j)) acc)
    (zrange 0 (ml_rows (m_layout r))) start.
Definition float_bias (mp : mul_params spec_float) (i j : Z) : spec_float :=
  match mp_bias mp with Some b => bdat b (channel_at mp i j) | None => S754_zero false end.

(** Bounds: the upper one if not less than it, then the lower one if not greater than it. *)
Definition vector_clamp (lo hi x : spec_float) : spec_float :=
  let y := if SFltb x hi then x else hi in if SFltb lo y then y else lo.

Definition float_entry (p : x86_path) (l r : mat spec_float) (mp : mul_params spec_float) (i j : Z) : spec_float :=
  vector_clamp (mp_min mp) (mp_max mp) (vector_dot p l r (float_bias mp i j) i j).

(** [out] is the product; the rest is as before. *)
Definition float_product (p : x86_path) (l r : mat spec_float) (mp : mul_params spec_float) (dst out : mat spec_float) : Prop :=
  m_layout out = m_layout dst /\ m_zp out = m_zp dst /\ blen (m_data out) = blen (m_data dst) /\
  (forall i j, in_matrix (m_layout dst) i j -> entry out i j = float_entry p l r mp i j) /\
  (forall q, (forall i j, in_matrix (m_layout dst) i j -> q <> position (m_layout dst) i j) -> bdat (m_data out) q = bdat (m_data dst) q).

(** The same without the detour through +0. *)
Definition plain_dot (p : x86_path) (l r : mat spec_float) (start : spec_float) (i j : Z) : spec_float :=
  fold_left (fun acc k => vector_step p (entry l i k) (entry r k j) acc) (zrange 0 (ml_rows (m_layout r))) start.

(** Biases are floats, and none is -0. *)
Definition no_negative_zero_bias (dst : mat spec_float) (mp : mul_params spec_float) : Prop :=
  forall i j, in_matrix (m_layout dst) i j -> valid_binary 24 128 (float_bias mp i j) = true /\ float_bias mp i j <> S754_zero true.

(** A bound that std::min, std::max and the vector instructions treat alike. *)
Definition plain_bound (x : spec_float) : Prop := x <> S754_nan /\ x <> S754_zero true.
