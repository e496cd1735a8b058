(** Model of the x86 instantiations of ruy::Mul for integers: which packing functions and kernels
    PopulateTrMulParams (create_trmul_params.h:120-146) selects on the paths kAvx, kAvx2Fma and kAvx512,
    and the multiplication made of them. *)
From Verif Require Import Base SidePair Mat Scalars IntOps Pack PackX86 MulParams Kernel Kernel8bit Kernel8bitAvx
  TrMul TrMulMachine TrMulRun.

Inductive x86_path := PathAvx | PathAvx2 | PathAvx512.

(** pack_x86.h:44-56: PackedTypeImpl. *)
Definition x86_packed (t : ity) : ity := if ity_eqb t u8 then s8 else t.
Definition x86_packed_types (st : sp ity) : sp ity := mk_sp (x86_packed (lhs st)) (x86_packed (rhs st)).

(** The blocks of the specialised kernels, kernel_x86.h:45-46, 68-69, 120-121, 142-143, 217-218: both sides are
    column-major 4x16 or 4x8. *)
Definition x86_width (p : x86_path) : Z := match p with PathAvx | PathAvx2 => 8 | PathAvx512 => 16 end.
Definition x86_layout (p : x86_path) : kernel_layout := {| kl_order := ColMajor; kl_rows := 4; kl_cols := x86_width p |}.

Definition x86_isa (p : x86_path) : isa := match p with PathAvx => avx | PathAvx2 => avx2 | PathAvx512 => avx512 end.
Definition x86_col (p : x86_path) : col_packer := match p with PathAvx => avx_col | PathAvx2 => avx2_col | PathAvx512 => avx512_col end.
Definition x86_row (p : x86_path) : row_packer := match p with PathAvx => avx_row | PathAvx2 => avx2_row | PathAvx512 => avx512_row end.

(** kernel_x86.h:34-36, 42, 64, 115, 138, 214: is there a Kernel of this path for these packed types? If
    not, RUY_INHERIT_KERNEL falls back to the path before, and in the end to kStandardCpp. (kAvx has no kernel for int16
    where kAvx2Fma has one, and no path has one where the next has none.) *)
Definition x86_has_kernel (p : x86_path) (lt rt : ity) : bool :=
  ity_eqb lt s8 && (ity_eqb rt s8 || (ity_eqb rt s16 && match p with PathAvx => false | _ => true end)).

(** pack.h:137-151 (RunPack) with the PackImpl specialisations of pack_x86.h:65, 112, 231, 282, 361, 396, 431 for
    blocks of [x86_width p] columns; otherwise RUY_INHERIT_PACK (37-39) falls back to the portable one. *)
Definition x86_run_pack (dbg : bool) (p : x86_path) (o : ops Z) (s : side) (st : ity) (src : mat Z) (pm : pmat Z)
    (start_col end_col : Z) : res (pmat Z) :=
  let is_8bit := ity_eqb st s8 || ity_eqb st u8 in
  match ml_order (m_layout src) with
  | ColMajor =>
    if is_8bit then pack_col_x86 dbg (x86_col p) st src pm start_col end_col
    else if ity_eqb st s16 && match p with PathAvx512 => true | _ => false end
    then pack_col_x86 dbg avx512_col16 st src pm start_col end_col
    else run_pack dbg o s (x86_width p) src pm start_col end_col
  | RowMajor =>
    if is_8bit then pack_row_x86 dbg (x86_row p) st src pm start_col end_col
    else run_pack dbg o s (x86_width p) src pm start_col end_col
  end.

(** trmul_params.h:64-66 (RunPack); [st]: the types of the sources of the TrMul. *)
Definition tm_pack_x86 (dbg : bool) (p : x86_path) (st : sp ity) (t : tparams Z) (s : side) (a b : Z) (m : tmem Z)
  : res (tmem Z) :=
  q <- x86_run_pack dbg p (tp_ops t) s (get s st) (get s (tp_src t)) (get s (tm_packed m)) a b ;;
  Ok (set_packed m s q).

(** trmul_params.h:67-70 (RunKernel); [rt], [dt]: the packed type of the right-hand side, the type of the destination. *)
Definition tm_kernel_x86 (dbg fat : bool) (p : x86_path) (rt dt : ity) (t : tparams Z) (start end_ : sp Z) (m : tmem Z)
  : res (tmem Z) :=
  d <- run_kernel_by dbg fat
         (fun start_row start_col end_row end_col dst =>
            kernel_x86 dbg (x86_isa p) rt dt (lhs (tm_packed m)) (rhs (tm_packed m)) (tp_mp t)
              start_row start_col end_row end_col (tp_dst_layout t) (tp_dst_zp t) dst)
         (x86_width p) (x86_width p) (lhs start) (rhs start) (lhs end_) (rhs end_) (tp_dst_layout t) (tm_dst m) ;;
  Ok {| tm_packed := tm_packed m; tm_dst := d |}.

(** Left and right trade places when the destination is row-major, create_trmul_params.h:463-481. *)
Definition trmul_types (d : order) (st : sp ity) : sp ity :=
  match d with ColMajor => st | RowMajor => mk_sp (rhs st) (lhs st) end.

(** frontend.h:45-71 on one of the x86 paths; [st]: the types of the user's operands. *)
Definition mul_x86 (c : config) (p : x86_path) (st : sp ity) (dt : ity) (g : garbage Z) (sched : list (Z * bool))
    (l r dst : mat Z) (mp : mul_params Z) : res (option (mat Z)) :=
  let o := int_ops checked (c_dbg c) st (x86_packed_types st) dt in
  let st' := trmul_types (ml_order (m_layout dst)) st in
  let pt' := x86_packed_types st' in
  if x86_has_kernel p (lhs pt') (rhs pt') then
    mul_by (fun t => tm_pack_x86 (c_dbg c) p st' t) (fun t => tm_kernel_x86 (c_dbg c) (c_fat c) p (rhs pt') dt t)
      c o (mk_sp (x86_layout p) (x86_layout p)) g sched l r dst mp
  else mul c o (standard_cpp_kernel_layout StandardCpp) g sched l r dst mp.
