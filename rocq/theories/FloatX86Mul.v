(** Model of the x86 instantiations of ruy::Mul for floats: which packing functions and kernels
    PopulateTrMulParams (create_trmul_params.h:120-146) selects on the paths kAvx, kAvx2Fma and kAvx512,
    and the multiplication made of them. *)
From Coq Require Import SpecFloat.
From Verif Require Import Base SidePair Mat Scalars FloatOps Pack MulParams Kernel TrMul TrMulMachine TrMulRun X86Mul
  SimdFloat PackFloatX86 KernelFloatX86.

(** kernel_x86.h:93-94, 167-168, 192-193: both sides are row-major 1x16 or 1x8. *)
Definition float_layout (p : x86_path) : kernel_layout := {| kl_order := RowMajor; kl_rows := 1; kl_cols := x86_width p |}.

(** kernel_avx.cc:433-438 and kernel_avx2_fma.cc:71-75 (MulAdd), kernel_avx512.cc (_mm512_fmadd_ps). *)
Definition float_scalars (p : x86_path) : fscalars spec_float := {|
  fs_zero := fzero;
  fs_madd := match p with PathAvx => mul_add 24 128 | _ => fused_mul_add 24 128 end;
  fs_min := min_ps; fs_max := max_ps |}.

Definition float_col (p : x86_path) : float_packer spec_float :=
  match p with PathAvx => float_avx | PathAvx2 => float_avx2 | PathAvx512 => float_avx512 end.

(** pack.h:137-151 (RunPack). Column-major sources: pack_x86.h:158-186, 192-220, 325-352. Row-major sources:
    RUY_USE_MEMCPY_ROWMAJOR_FLOAT_PACK (pack_x86.h:41-42) on kAvx2Fma and kAvx512; on kAvx RUY_INHERIT_PACK (37) falls
    back to the portable one. *)
Definition float_run_pack (dbg : bool) (p : x86_path) (o : ops spec_float) (s : side) (src : mat spec_float) (pm : pmat spec_float)
    (start_col end_col : Z) : res (pmat spec_float) :=
  match ml_order (m_layout src) with
  | ColMajor => pack_float_col fzero dbg (float_col p) src pm start_col end_col
  | RowMajor =>
    match p with
    | PathAvx => run_pack dbg o s (x86_width p) src pm start_col end_col
    | _ => memcpy_pack dbg fzero (x86_width p) src pm start_col end_col
    end
  end.

(** trmul_params.h:64-66 (RunPack). *)
Definition tm_pack_float (dbg : bool) (p : x86_path) (t : tparams spec_float) (s : side) (a b : Z) (m : tmem spec_float)
  : res (tmem spec_float) :=
  q <- float_run_pack dbg p (tp_ops t) s (get s (tp_src t)) (get s (tm_packed m)) a b ;;
  Ok (set_packed m s q).

(** trmul_params.h:67-70 (RunKernel). *)
Definition tm_kernel_float (dbg fat : bool) (p : x86_path) (t : tparams spec_float) (start end_ : sp Z) (m : tmem spec_float)
  : res (tmem spec_float) :=
  d <- run_kernel_by dbg fat
         (fun start_row start_col end_row end_col dst =>
            kernel_float_x86 (float_scalars p) dbg (match p with PathAvx512 => true | _ => false end)
              (lhs (tm_packed m)) (rhs (tm_packed m)) (tp_mp t) start_row start_col end_row end_col (tp_dst_layout t) dst)
         (x86_width p) (x86_width p) (lhs start) (rhs start) (lhs end_) (rhs end_) (tp_dst_layout t) (tm_dst m) ;;
  Ok {| tm_packed := tm_packed m; tm_dst := d |}.

(** frontend.h:45-71 on one of the x86 paths. *)
Definition mul_float_x86 (c : config) (p : x86_path) (g : garbage spec_float) (sched : list (Z * bool))
    (l r dst : mat spec_float) (mp : mul_params spec_float) : res (option (mat spec_float)) :=
  mul_by (fun t => tm_pack_float (c_dbg c) p t) (fun t => tm_kernel_float (c_dbg c) (c_fat c) p t)
    c f32_ops (mk_sp (float_layout p) (float_layout p)) g sched l r dst mp.
