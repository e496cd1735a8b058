(** Model of the float kernels for AArch64: Kernel<Path::kNeon> and Kernel<Path::kNeonDotprod> for floats of
    ruy/kernel_arm.h, calling the functions of ruy/kernel_arm64.cc as transcribed in NeonKernelCode.v.

    The assembly sees the memory as bytes; a float is the 32-bit word that represents it, where all NaNs are one. The
    members zero_data and dst_tmp_buf of KernelParamsFloat are blocks of their own. Profiler labels are left out. *)
From Coq Require Import ZArith List Bool SpecFloat.
From Verif Require Import Base SidePair Mat Scalars FloatOps FloatWords Pack MulParams Kernel SimdFloat KernelFloatX86 Simd Neon64 NeonPack NeonKernelCode CpuInfo Tune.
Import ListNotations.
Open Scope Z_scope.

(** ** Memory *)
Definition float_words (b : buf spec_float) : buf Z := {| blen := blen b; bdat := fun i => word_of_float (bdat b i) |}.
(** An array of floats as bytes, and back; [old] gives the length. *)
Definition float_bytes (b : buf spec_float) : buf Z := enc 4 (float_words b).
Definition bytes_float (old : buf spec_float) (bytes : buf Z) : buf spec_float :=
  {| blen := blen old;
     bdat := fun i => if (0 <=? i) && (i <? blen old) then float_of_word (of_bytes (get_bytes bytes (4 * i) 4)) else bdat old i |}.

(** kernel_common.h:215-236 (KernelParamsFloat): offset, size and value of the members that the assembly reads; 59 and 64
    (the flags). Pointers to the left-hand side, the right-hand side, the biases and the destination. *)
Definition neon_params (p : fkparams spec_float) : list (Z * Z * val) :=
  [(0, 8, Ptr 1 (4 * kf_lhs_base p)); (8, 8, Ptr 2 (4 * kf_rhs_base p)); (16, 8, Ptr 4 (4 * kf_dst_base p)); (24, 8, Ptr 3 0);
   (32, 4, Int (wrap_u 32 (kf_start_row p))); (36, 4, Int (wrap_u 32 (kf_start_col p)));
   (40, 4, Int (wrap_u 32 (kf_last_row p))); (44, 4, Int (wrap_u 32 (kf_last_col p)));
   (48, 4, Int (wrap_u 32 (kf_dst_rows p))); (52, 4, Int (wrap_u 32 (kf_dst_cols p)));
   (56, 4, Int (wrap_u 32 (kf_lhs_stride p))); (60, 4, Int (wrap_u 32 (kf_rhs_stride p))); (64, 4, Int (wrap_u 32 (kf_dst_stride p)));
   (68, 4, Int (wrap_u 32 (kf_depth p))); (72, 4, Int (word_of_float (kf_clamp_min p))); (76, 4, Int (word_of_float (kf_clamp_max p)));
   (80, 1, Int ((if kf_has_bias p then 1 else 0) + (if kf_channel_is_col p then 32 else 0)))].

(** [tmp] is what dst_tmp_buf contains: 64 floats that nobody has set. *)
Definition kernel_memory (p : fkparams spec_float) (dst : buf spec_float) (tmp : Z -> Z) : memory :=
  fun k => match k with
  | 0%nat => Struct (neon_params p) | 1%nat => Bytes (float_bytes (kf_lhs p)) | 2%nat => Bytes (float_bytes (kf_rhs p))
  | 3%nat => Bytes (float_bytes (kf_bias p)) | 4%nat => Bytes (float_bytes dst) | 5%nat => Bytes {| blen := 256; bdat := tmp |}
  | _ => empty_block
  end.

(** kernel_arm64.cc:7707-7714, 8341-8348, 8818-8825, 9311-9318 and the operands of the asm statements, 8300-8305 and the
    like. *)
Definition kernel_regs (g : leftover) (p : fkparams spec_float) : nat -> val :=
  fun k => match k with
  | 40%nat | 42%nat => Ptr 1 (4 * kf_lhs_base p) | 41%nat | 43%nat => Ptr 2 (4 * kf_rhs_base p)
  | 44%nat | 45%nat => Ptr 4 (4 * kf_dst_base p)
  | 46%nat => int_reg g 46 (kf_start_row p) | 47%nat => int_reg g 47 (kf_start_col p)
  | 48%nat => Ptr 0 0
  | 49%nat => int_reg g 49 (kf_dst_rows p) | 50%nat => int_reg g 50 (kf_dst_cols p)
  | 51%nat => Ptr 5 0
  | _ => lo_xs g k
  end.

(** A bound for the instructions executed. *)
Definition kernel_fuel (p : fkparams spec_float) : nat :=
  Z.to_nat (40 + (47 * kf_depth p + 840) * (((kf_last_row p - kf_start_row p) / 8 + 1) * ((kf_last_col p - kf_start_col p) / 8 + 1))).

(** kernel_arm.h:156-162, 206-212. [dotprod]: Path::kNeonDotprod. *)
Definition float_kernel_code (dotprod : bool) (t : tuning) : list instr :=
  match t with
  | TA55ish => if dotprod then kernelf_dotprod_a55 else kernelf_a55
  | TX1 => kernelf_x1
  | _ => kernelf_neon
  end.

(** Only the zero is used here. *)
Definition neon_scalars : fscalars spec_float :=
  {| fs_zero := S754_zero false; fs_madd := fused_mul_add 24 128; fs_min := fmin_arm; fs_max := fmax_arm |}.

(** kernel_arm.h:150-164, 200-213. *)
Definition kernel_float_neon (dbg dotprod : bool) (t : tuning) (g : leftover) (tmp : Z -> Z) (lp rp : pmat spec_float) (mp : mul_params spec_float)
    (start_row start_col end_row end_col : Z) (dl : mat_layout) (dst : buf spec_float) : res (buf spec_float) :=
  p <- make_kernel_params_float neon_scalars dbg 8 lp rp mp start_row start_col end_row end_col dl ;;
  let s0 := {| xs := kernel_regs g p; vs := fun i => firstn 16 (lo_vs g i ++ repeat 0 16); fl := lo_fl g; mem := kernel_memory p dst tmp |} in
  s <- run (kernel_fuel p) (float_kernel_code dotprod t) 0 s0 ;;
  match mem s 4%nat with
  | Bytes d => Ok (bytes_float dst d)
  | _ => UB
  end.
