(** Model of ruy/kernel.h (portable kernels) and ruy/reference_mul.h. *)
From Verif Require Import Base SidePair SizeUtil Mat Scalars Pack MulParams.

(** kernel.h:141-169: the kernel layouts of the portable paths. *)
Inductive portable_path := StandardCpp | Variant1 | Variant2 | Variant3.
Definition standard_cpp_kernel_layout (p : portable_path) : sp kernel_layout :=
  match p with
  | StandardCpp => mk_sp {| kl_order := ColMajor; kl_rows := 1; kl_cols := 1 |}
                         {| kl_order := ColMajor; kl_rows := 1; kl_cols := 1 |}
  | Variant1 => mk_sp {| kl_order := RowMajor; kl_rows := 4; kl_cols := 4 |}
                      {| kl_order := RowMajor; kl_rows := 4; kl_cols := 4 |}
  | Variant2 => mk_sp {| kl_order := ColMajor; kl_rows := 1; kl_cols := 4 |}
                      {| kl_order := ColMajor; kl_rows := 1; kl_cols := 8 |}
  | Variant3 => mk_sp {| kl_order := ColMajor; kl_rows := 2; kl_cols := 16 |}
                      {| kl_order := RowMajor; kl_rows := 2; kl_cols := 8 |}
  end.

(** kernel.h:213-218. *)
Definition kernel_accum {V} (dbg : bool) (o : ops V) (lp rp : pmat V) (depth i j : Z) : res V :=
  forto 0 depth
    (fun k accum =>
       lv <- pelement dbg lp k i ;;
       rv <- pelement dbg rp k j ;;
       p <- o_mul o (o_to_acc o Lhs lv) (o_to_acc o Rhs rv) ;;
       o_add o accum p)
    (o_acc0 o).

(** A read through the [sums] pointer. *)
Definition read_sum {V} (p : pmat V) (i : Z) : res V :=
  match p_sums p with None => UB | Some b => bread b i end.

(** kernel.h:224-232. *)
Definition zero_point_terms {V} (o : ops V) (lp rp : pmat V) (depth i j : Z) (accum : V) : res V :=
  a <- (if p_zp lp =? 0 then Ok accum
        else sum <- read_sum rp j ;; o_sub_zp_sum o Rhs accum (p_zp lp) sum) ;;
  a <- (if p_zp rp =? 0 then Ok a
        else sum <- read_sum lp i ;; o_sub_zp_sum o Lhs a (p_zp rp) sum) ;;
  if (p_zp lp =? 0) || (p_zp rp =? 0) then Ok a
  else o_add_zp_zp_depth o a (p_zp lp) (p_zp rp) depth.

(** kernel.h:213-237: the value stored in entry (i, j). *)
Definition kernel_entry {V} (dbg : bool) (o : ops V) (lp rp : pmat V) (mp : mul_params V) (dst_zp i j : Z)
  : res V :=
  let depth := pl_rows (p_layout lp) in
  a <- kernel_accum dbg o lp rp depth i j ;;
  let channel := channel_of mp i j in
  a <- add_bias o mp channel a ;;
  a <- zero_point_terms o lp rp depth i j a ;;
  finish o mp dst_zp channel a.

(** kernel.h:190-240 (Kernel::Run). [lk], [rk]: LhsLayout::kCols, RhsLayout::kCols. *)
Definition kernel_run {V} (dbg : bool) (o : ops V) (lk rk : Z) (lp rp : pmat V) (mp : mul_params V)
    (start_row start_col end_row end_col : Z) (dl : mat_layout) (dst_zp : Z) (dst : buf V) : res (buf V) :=
  let clamped_end_row := Z.min end_row (ml_rows dl) in
  let clamped_end_col := Z.min end_col (ml_cols dl) in
  dcheck dbg (0 <=? start_row) ;;;
  dcheck dbg (start_row <=? clamped_end_row) ;;;
  dcheck dbg (clamped_end_row <=? ml_rows dl) ;;;
  dcheck dbg (clamped_end_row <=? end_row) ;;;
  dcheck dbg (end_row - clamped_end_row <=? lk) ;;;
  dcheck dbg (0 <=? start_col) ;;;
  dcheck dbg (start_col <=? clamped_end_col) ;;;
  dcheck dbg (clamped_end_col <=? ml_cols dl) ;;;
  dcheck dbg (clamped_end_col <=? end_col) ;;;
  dcheck dbg (end_col - clamped_end_col <=? rk) ;;;
  forto start_row clamped_end_row
    (fun i dst =>
       forto start_col clamped_end_col
         (fun j dst =>
            v <- kernel_entry dbg o lp rp mp dst_zp i j ;;
            off <- offset dl i j ;;
            bwrite dst off v) dst) dst.

(** [for (int x = a; x < b; x += k)]. *)
Definition forstep {S} (a b k : Z) (body : Z -> S -> res S) (s : S) : res S :=
  forto 0 ((b - a + k - 1) / k) (fun t s => body (a + t * k) s) s.

(** kernel.h:56-139 (RunKernel). [fat] is RUY_OPT(FAT_KERNEL); [kernel] is Kernel::Run: start row and
    column, end row and column, destination. *)
Definition run_kernel_by {V} (dbg fat : bool) (kernel : Z -> Z -> Z -> Z -> buf V -> res (buf V)) (lk rk : Z)
    (start_row start_col end_row end_col : Z) (dl : mat_layout) (dst : buf V) : res (buf V) :=
  dcheck dbg (0 <=? start_row) ;;;
  dcheck dbg (start_row <=? end_row) ;;;
  dcheck dbg (end_row <? ml_rows dl + lk) ;;;
  dcheck dbg (Z.rem (end_row - start_row) lk =? 0) ;;;
  dcheck dbg (0 <=? start_col) ;;;
  dcheck dbg (start_col <=? end_col) ;;;
  dcheck dbg (end_col <? ml_cols dl + rk) ;;;
  dcheck dbg (Z.rem (end_col - start_col) rk =? 0) ;;;
  if fat then kernel start_row start_col end_row end_col dst
  else
    forstep start_col end_col rk
      (fun col dst =>
         block_end_col <- (x <- i32 (col + rk) ;; Ok (Z.min x end_col)) ;;
         forstep start_row end_row lk
           (fun row dst =>
              block_end_row <- (x <- i32 (row + lk) ;; Ok (Z.min x end_row)) ;;
              kernel row col block_end_row block_end_col dst) dst) dst.

(** RunKernel with the portable kernel. *)
Definition run_kernel {V} (dbg fat : bool) (o : ops V) (lk rk : Z) (lp rp : pmat V) (mp : mul_params V)
    (start_row start_col end_row end_col : Z) (dl : mat_layout) (dst_zp : Z) (dst : buf V) : res (buf V) :=
  run_kernel_by dbg fat
    (fun start_row start_col end_row end_col dst =>
       kernel_run dbg o lk rk lp rp mp start_row start_col end_row end_col dl dst_zp dst)
    lk rk start_row start_col end_row end_col dl dst.

(** * ReferenceMul, reference_mul.h:27-52 *)

Definition ref_accum {V} (o : ops V) (l r : mat V) (i j : Z) : res V :=
  forto 0 (ml_cols (m_layout l))
    (fun k accum =>
       lv <- element l i k ;;
       rv <- element r k j ;;
       a <- o_ref_sub_zp o Lhs (o_to_acc o Lhs lv) (m_zp l) ;;
       b <- o_ref_sub_zp o Rhs (o_to_acc o Rhs rv) (m_zp r) ;;
       p <- o_mul o a b ;;
       o_add o accum p)
    (o_acc0 o).

Definition ref_entry {V} (o : ops V) (l r : mat V) (mp : mul_params V) (dst_zp i j : Z) : res V :=
  a <- ref_accum o l r i j ;;
  let channel := channel_of mp i j in
  a <- add_bias o mp channel a ;;
  finish o mp dst_zp channel a.

Definition reference_mul {V} (o : ops V) (l r : mat V) (mp : mul_params V) (dst : mat V) : res (mat V) :=
  data <- forto 0 (ml_rows (m_layout l))
    (fun i d =>
       forto 0 (ml_cols (m_layout r))
         (fun j d =>
            v <- ref_entry o l r mp (m_zp dst) i j ;;
            off <- offset (m_layout dst) i j ;;
            bwrite d off v) d) (m_data dst) ;;
  Ok {| m_data := data; m_layout := m_layout dst; m_zp := m_zp dst |}.
