(** Model of the 8-bit kernels for AArch64: Kernel<Path::kNeon> and Kernel<Path::kNeonDotprod> for int8 operands of
    ruy/kernel_arm.h, calling the functions of ruy/kernel_arm64.cc as transcribed in NeonKernel8Code.v.

    The members zero_data, dst_tmp_buf and the buffers of multipliers of KernelParams8bit are blocks of their own. A null or
    uninitialized pointer to sums is a pointer to no bytes. The operand dst_type_id, a uint8_t, is zero-extended to 32 bits.
    Profiler labels are left out. *)
From Coq Require Import ZArith List Bool.
From Verif Require Import Base SidePair Mat Scalars Pack IntOps MulParams Kernel Simd Kernel8bit Neon64 NeonPack NeonKernel8Code CpuInfo Tune.
Import ListNotations.
Open Scope Z_scope.

(** kernel_common.h:67-92. *)
Definition type_id (t : ity) : Z := if ity_eqb t u8 then 1 else if ity_eqb t s8 then 2 else if ity_eqb t s16 then 3 else 4.

(** kernel_common.h:58-63; NEEDS_LEFT_SHIFT is always set, 181. *)
Definition flag_bits (p : kparams) : Z :=
  (if k_has_bias p then 1 else 0) + (if k_has_lhs_sums p then 2 else 0) + (if k_has_rhs_sums p then 4 else 0) +
  (if k_has_perchannel p then 8 else 0) + 16 + (if k_channel_is_col p then 32 else 0).

(** kernel_common.h:94-131 (KernelParams8bit), kernel_arm64.cc:38-62: offset, size and value of the members that the assembly
    reads; of the bounds it reads the low byte or the low half. *)
Definition neon8_params (p : kparams) : list (Z * Z * val) :=
  [(0, 8, Ptr 3 0); (8, 8, Ptr 6 0); (16, 8, Ptr 7 0); (24, 8, Ptr 1 (k_lhs_base p)); (32, 8, Ptr 8 0); (40, 8, Ptr 9 0);
   (48, 8, Ptr 2 (k_rhs_base p)); (56, 8, Ptr 4 (k_dst_base p));
   (64, 4, Int (wrap_u 32 (k_lhs_zp p))); (68, 4, Int (wrap_u 32 (k_rhs_zp p))); (72, 4, Int (wrap_u 32 (k_dst_zp p)));
   (76, 4, Int (wrap_u 32 (k_prod_zp_depth p)));
   (80, 4, Int (wrap_u 32 (k_start_row p))); (84, 4, Int (wrap_u 32 (k_start_col p)));
   (88, 4, Int (wrap_u 32 (k_last_row p))); (92, 4, Int (wrap_u 32 (k_last_col p)));
   (96, 4, Int (wrap_u 32 (k_dst_rows p))); (100, 4, Int (wrap_u 32 (k_dst_cols p)));
   (104, 4, Int (wrap_u 32 (k_lhs_stride p))); (108, 4, Int (wrap_u 32 (k_rhs_stride p))); (112, 4, Int (wrap_u 32 (k_dst_stride p)));
   (116, 4, Int (wrap_u 32 (k_depth p)));
   (120, 1, Int (wrap_u 8 (k_clamp_min p))); (120, 2, Int (wrap_u 16 (k_clamp_min p))); (120, 4, Int (wrap_u 32 (k_clamp_min p)));
   (124, 1, Int (wrap_u 8 (k_clamp_max p))); (124, 2, Int (wrap_u 16 (k_clamp_max p))); (124, 4, Int (wrap_u 32 (k_clamp_max p)));
   (128, 1, Int (flag_bits p))].

(** [tmp] is what dst_tmp_buf contains: [n] * [n] * 4 bytes that nobody has set. *)
Definition kernel8_memory (n : Z) (p : kparams) (dst : buf Z) (tmp : Z -> Z) : memory :=
  fun k => match k with
  | 0%nat => Struct (neon8_params p) | 1%nat => Bytes (enc 1 (k_lhs p)) | 2%nat => Bytes (enc 1 (k_rhs p))
  | 3%nat => Bytes (enc 4 (k_bias p)) | 4%nat => Bytes (enc (it_size (k_dst_type p)) dst)
  | 5%nat => Bytes {| blen := 4 * n * n; bdat := tmp |}
  | 6%nat => Bytes (enc 4 (k_lhs_sums p)) | 7%nat => Bytes (enc 4 (k_rhs_sums p))
  | 8%nat => Bytes (enc 4 (k_mult p)) | 9%nat => Bytes (enc 4 (k_exp p))
  | _ => empty_block
  end.

(** kernel_arm64.cc:5674-5682 and the like, and the operands of the asm statements, 6344-6349 and the like. *)
Definition kernel8_regs (g : leftover) (p : kparams) : nat -> val :=
  fun k => match k with
  | 40%nat | 42%nat => Ptr 1 (k_lhs_base p) | 41%nat | 43%nat => Ptr 2 (k_rhs_base p)
  | 44%nat | 45%nat => Ptr 4 (k_dst_base p)
  | 46%nat => int_reg g 46 (k_start_row p) | 47%nat => int_reg g 47 (k_start_col p)
  | 48%nat => Ptr 0 0
  | 49%nat => int_reg g 49 (k_dst_rows p) | 50%nat => int_reg g 50 (k_dst_cols p)
  | 51%nat => Ptr 5 0
  | 52%nat => int_reg g 52 (type_id (k_dst_type p))
  | _ => lo_xs g k
  end.
Definition kernel8_start (n : Z) (g : leftover) (tmp : Z -> Z) (p : kparams) (dst : buf Z) : state :=
  {| xs := kernel8_regs g p; vs := fun i => firstn 16 (lo_vs g i ++ repeat 0 16); fl := lo_fl g; mem := kernel8_memory n p dst tmp |}.

(** A bound for the instructions executed. *)
Definition kernel8_fuel (n : Z) (p : kparams) : nat :=
  Z.to_nat (100 + (20 * k_depth p + 3000) * (((k_last_row p - k_start_row p) / n + 1) * ((k_last_col p - k_start_col p) / n + 1))).

(** kernel_arm.h:68-77, 121-130. [dotprod]: Path::kNeonDotprod. *)
Definition kernel8_code (dotprod : bool) (t : tuning) (dl : mat_layout) (mp : mul_params Z) : list instr :=
  if (ml_cols dl =? 1) && match mp_chan mp with ChRow => true | ChCol => false end
  then (if dotprod then kernel8_dotprod_1col else kernel8_1col)
  else match t with
  | TA55ish => if dotprod then kernel8_dotprod_a55 else kernel8_a55
  | TX1 => if dotprod then kernel8_dotprod_x1 else kernel8_neon
  | _ => if dotprod then kernel8_dotprod else kernel8_neon
  end.
Definition kernel8_block (dotprod : bool) : Z := if dotprod then 8 else 4.

(** kernel_arm.h:54-79, 106-132. *)
Definition kernel_8bit_neon (dbg dotprod : bool) (t : tuning) (g : leftover) (tmp : Z -> Z) (dt : ity) (lp rp : pmat Z) (mp : mul_params Z)
    (start_row start_col end_row end_col : Z) (dl : mat_layout) (dst_zp : Z) (dst : buf Z) : res (buf Z) :=
  let n := kernel8_block dotprod in
  p <- make_kernel_params8bit dbg n s8 dt lp rp mp start_row start_col end_row end_col dl dst_zp ;;
  s <- run (kernel8_fuel n p) (kernel8_code dotprod t dl mp) 0 (kernel8_start n g tmp p dst) ;;
  match mem s 4%nat with
  | Bytes d => Ok (dec dt dst d)
  | _ => UB
  end.
