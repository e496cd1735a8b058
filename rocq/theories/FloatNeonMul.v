(** Model of the AArch64 instantiations of ruy::Mul for floats: which packing functions and kernels
    PopulateTrMulParams (create_trmul_params.h:120-146) selects on the paths kNeon and kNeonDotprod, and
    the multiplication made of them. *)
From Coq Require Import ZArith List Bool SpecFloat.
From Verif Require Import Base SidePair Mat Scalars IntOps FloatOps FloatWords Pack PackX86 MulParams Kernel TrMul TrMulMachine TrMulRun
  PackFloatX86 NeonPack Tune KernelFloatNeon.
Import ListNotations.
Open Scope Z_scope.

(** kernel_arm.h:147-148 and 196-197: both sides are row-major 1x8. *)
Definition neon_layout : kernel_layout := {| kl_order := RowMajor; kl_rows := 1; kl_cols := 8 |}.

(** What is not determined by the program: for each call of RunPack, by its side and first column, the tuning
    (TuningResolver::Resolve, trmul.cc:90, asks for that of the processor on which the thread happens to run) and what the registers hold
    before each block of four columns; for each call of RunKernel, by its first row and column, the tuning, and for each call
    of a kernel, by its first row and column, what the registers and dst_tmp_buf hold. A block is packed once and computed
    once, so that this tells all calls apart. *)
Record circumstances := {
  ci_pack_tuning : side -> Z -> tuning;
  ci_pack_regs : side -> Z -> Z -> leftover;
  ci_tuning : Z -> Z -> tuning;
  ci_regs : Z -> Z -> leftover;
  ci_tmp : Z -> Z -> Z -> Z
}.
Definition is_a55ish (t : tuning) : bool := match t with TA55ish => true | _ => false end.

(** The packing functions move 32-bit words, taken as integers. *)
Definition words (b : buf spec_float) : buf Z := {| blen := blen b; bdat := fun i => wrap_s 32 (word_of_float (bdat b i)) |}.
Definition mat_words (m : mat spec_float) : mat Z := {| m_data := words (m_data m); m_layout := m_layout m; m_zp := 0 |}.
(** The sums are not given to the packing functions. *)
Definition pmat_words (p : pmat spec_float) : pmat Z := {| p_data := words (p_data p); p_sums := None; p_layout := p_layout p; p_zp := 0 |}.
Definition pmat_floats (p : pmat spec_float) (q : pmat Z) : pmat spec_float :=
  {| p_data := {| blen := blen (p_data q); bdat := fun i => float_of_word (bdat (p_data q) i) |};
     p_sums := p_sums p; p_layout := p_layout q; p_zp := p_zp p |}.

(** pack.h:137-151 (RunPack). Column-major sources: pack_arm.h:361-414. Row-major sources:
    RUY_USE_MEMCPY_ROWMAJOR_FLOAT_PACK (pack_arm.h:39). Path::kNeonDotprod inherits both (37). *)
Definition neon_run_pack (dbg : bool) (t : tuning) (gs : Z -> leftover) (src : mat spec_float) (pm : pmat spec_float)
    (start_col end_col : Z) : res (pmat spec_float) :=
  match ml_order (m_layout src) with
  | ColMajor => q <- pack_neon dbg neon_float (is_a55ish t) gs s32 (mat_words src) (pmat_words pm) start_col end_col ;; Ok (pmat_floats pm q)
  | RowMajor => memcpy_pack dbg fzero 8 src pm start_col end_col
  end.

(** trmul_params.h:64-66 (RunPack). *)
Definition tm_pack_neon (dbg : bool) (ci : circumstances) (t : tparams spec_float) (s : side) (a b : Z) (m : tmem spec_float)
  : res (tmem spec_float) :=
  q <- neon_run_pack dbg (ci_pack_tuning ci s a) (ci_pack_regs ci s a) (get s (tp_src t)) (get s (tm_packed m)) a b ;;
  Ok (set_packed m s q).

(** trmul_params.h:67-70 (RunKernel). *)
Definition tm_kernel_neon (dbg fat dotprod : bool) (ci : circumstances) (t : tparams spec_float) (start end_ : sp Z) (m : tmem spec_float)
  : res (tmem spec_float) :=
  d <- run_kernel_by dbg fat
         (fun start_row start_col end_row end_col dst =>
            kernel_float_neon dbg dotprod (ci_tuning ci (lhs start) (rhs start)) (ci_regs ci start_row start_col) (ci_tmp ci start_row start_col)
              (lhs (tm_packed m)) (rhs (tm_packed m)) (tp_mp t) start_row start_col end_row end_col (tp_dst_layout t) dst)
         8 8 (lhs start) (rhs start) (lhs end_) (rhs end_) (tp_dst_layout t) (tm_dst m) ;;
  Ok {| tm_packed := tm_packed m; tm_dst := d |}.

(** frontend.h:45-71 on Path::kNeon or, if [dotprod], Path::kNeonDotprod. *)
Definition mul_float_neon (c : config) (dotprod : bool) (ci : circumstances) (g : garbage spec_float) (sched : list (Z * bool))
    (l r dst : mat spec_float) (mp : mul_params spec_float) : res (option (mat spec_float)) :=
  mul_by (fun t => tm_pack_neon (c_dbg c) ci t) (fun t => tm_kernel_neon (c_dbg c) (c_fat c) dotprod ci t)
    c f32_ops (mk_sp neon_layout neon_layout) g sched l r dst mp.
