(** Model of the AArch64 instantiation of ruy::Mul for bytes on the path kNeonDotprod: which packing functions and kernels
    PopulateTrMulParams (create_trmul_params.h:120-146) selects, and the multiplication made of them. *)
From Coq Require Import ZArith List Bool.
From Verif Require Import Base SidePair Mat Scalars IntOps Pack PackX86 MulParams Kernel X86Mul TrMul TrMulMachine TrMulRun
  NeonPack NeonPackRow Tune FloatNeonMul Kernel8Neon.
Import ListNotations.
Open Scope Z_scope.

(** kernel_arm.h:107-108: both sides are column-major 4x8. *)
Definition dot_layout : kernel_layout := {| kl_order := ColMajor; kl_rows := 4; kl_cols := 8 |}.

(** pack.h:137-151 (RunPack). Column-major sources: pack_arm.h:273-339. Row-major sources: pack_arm.h:497-571. *)
Definition dot_run_pack (dbg : bool) (t : tuning) (gs : Z -> leftover) (st : ity) (src : mat Z) (pm : pmat Z) (start_col end_col : Z) : res (pmat Z) :=
  match ml_order (m_layout src) with
  | ColMajor => pack_neon dbg neon_4x8 (is_a55ish t) gs st src pm start_col end_col
  | RowMajor => pack_row_neon dbg gs st src pm start_col end_col
  end.

(** trmul_params.h:64-66 (RunPack); [st]: the types of the sources of the TrMul. *)
Definition tm_pack_dot (dbg : bool) (ci : circumstances) (st : sp ity) (t : tparams Z) (s : side) (a b : Z) (m : tmem Z) : res (tmem Z) :=
  q <- dot_run_pack dbg (ci_pack_tuning ci s a) (ci_pack_regs ci s a) (get s st) (get s (tp_src t)) (get s (tm_packed m)) a b ;;
  Ok (set_packed m s q).

(** trmul_params.h:67-70 (RunKernel); [dt]: the type of the destination. *)
Definition tm_kernel_dot (dbg fat : bool) (ci : circumstances) (dt : ity) (t : tparams Z) (start end_ : sp Z) (m : tmem Z) : res (tmem Z) :=
  d <- run_kernel_by dbg fat
         (fun start_row start_col end_row end_col dst =>
            kernel_8bit_neon dbg true (ci_tuning ci (lhs start) (rhs start)) (ci_regs ci start_row start_col) (ci_tmp ci start_row start_col) dt
              (lhs (tm_packed m)) (rhs (tm_packed m)) (tp_mp t) start_row start_col end_row end_col (tp_dst_layout t) (tp_dst_zp t) dst)
         8 8 (lhs start) (rhs start) (lhs end_) (rhs end_) (tp_dst_layout t) (tm_dst m) ;;
  Ok {| tm_packed := tm_packed m; tm_dst := d |}.

(** frontend.h:45-71 on Path::kNeonDotprod; [st]: the types of the user's operands, int8 or uint8 (packed as int8, pack_arm.h:64-66). *)
Definition mul_dotprod (c : config) (ci : circumstances) (st : sp ity) (dt : ity) (g : garbage Z) (sched : list (Z * bool))
    (l r dst : mat Z) (mp : mul_params Z) : res (option (mat Z)) :=
  let o := int_ops checked (c_dbg c) st (mk_sp s8 s8) dt in
  mul_by (fun t => tm_pack_dot (c_dbg c) ci (trmul_types (ml_order (m_layout dst)) st) t) (fun t => tm_kernel_dot (c_dbg c) (c_fat c) ci dt t)
    c o (mk_sp dot_layout dot_layout) g sched l r dst mp.
