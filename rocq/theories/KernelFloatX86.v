(** Model of the floating-point x86 kernels: MakeKernelParamsFloat (ruy/kernel_common.h),
    KernelFloatAvxCommon and KernelFloatAvxCommonSingleCol (ruy/kernel_x86.h), KernelFloatAvx512 and
    KernelFloatAvx512SingleCol (ruy/kernel_avx512.cc), and the dispatch of ruy/kernel_x86.h.

    Accumulators are a list of registers. Flags are booleans. Pointers are offsets in scalars from the
    start of a buffer; that a pointer is computed from the one of the iteration before or by a
    multiplication is not distinguished, and only accesses outside the buffer are undefined. *)
From Coq Require Import ZArith List Bool SpecFloat.
From Verif Require Import Base SidePair Mat Scalars Pack FloatOps MulParams Kernel SimdFloat.
Import ListNotations.
Open Scope Z_scope.

(** Read in a loop. *)
Fixpoint rmap {A B} (f : A -> res B) (l : list A) : res (list B) :=
  match l with [] => Ok [] | a :: l => b <- f a ;; bs <- rmap f l ;; Ok (b :: bs) end.

(** Arithmetic on lanes: [fs_madd a b c] is [a * b + c]. *)
Record fscalars (V : Type) := { fs_zero : V; fs_madd : V -> V -> V -> V; fs_min : V -> V -> V; fs_max : V -> V -> V }.
Arguments fs_zero {V}. Arguments fs_madd {V}. Arguments fs_min {V}. Arguments fs_max {V}.

(** ** Parameters, kernel_common.h:215-237 *)
Record fkparams (V : Type) := {
  kf_lhs : buf V; kf_lhs_base : Z;
  kf_rhs : buf V; kf_rhs_base : Z;
  kf_dst_base : Z;
  kf_bias : buf V; kf_has_bias : bool; kf_channel_is_col : bool;
  kf_start_row : Z; kf_start_col : Z; kf_last_row : Z; kf_last_col : Z;
  kf_dst_rows : Z; kf_dst_cols : Z;
  kf_lhs_stride : Z; kf_rhs_stride : Z; kf_dst_stride : Z;
  kf_depth : Z; kf_clamp_min : V; kf_clamp_max : V
}.
Arguments kf_lhs {V}. Arguments kf_lhs_base {V}. Arguments kf_rhs {V}. Arguments kf_rhs_base {V}.
Arguments kf_dst_base {V}. Arguments kf_bias {V}. Arguments kf_has_bias {V}. Arguments kf_channel_is_col {V}.
Arguments kf_start_row {V}. Arguments kf_start_col {V}. Arguments kf_last_row {V}. Arguments kf_last_col {V}.
Arguments kf_dst_rows {V}. Arguments kf_dst_cols {V}. Arguments kf_lhs_stride {V}. Arguments kf_rhs_stride {V}.
Arguments kf_dst_stride {V}. Arguments kf_depth {V}. Arguments kf_clamp_min {V}. Arguments kf_clamp_max {V}.

Section Kernels.
Context {V : Type}.
Variable fs : fscalars V.

(** kernel_common.h:239-281. [n] is LhsCols and RhsCols. Without a bias the pointer is to zero_data. The strides
    in bytes are computed as size_t and converted to int32. *)
Definition make_kernel_params_float (dbg : bool) (n : Z) (lp rp : pmat V) (mp : mul_params V)
    (start_row start_col end_row end_col : Z) (dl : mat_layout) : res (fkparams V) :=
  dcheck dbg (Z.rem start_row n =? 0) ;;;
  dcheck dbg (Z.rem start_col n =? 0) ;;;
  dcheck dbg (Z.rem end_row n =? 0) ;;;
  dcheck dbg (Z.rem end_col n =? 0) ;;;
  lhs_base <- i32 (start_row * pl_stride (p_layout lp)) ;;
  rhs_base <- i32 (start_col * pl_stride (p_layout rp)) ;;
  dst_base <- i32 (start_col * ml_stride dl) ;;
  last_row <- i32 (end_row - n) ;;
  last_col <- i32 (end_col - n) ;;
  dcheck dbg (last_row <? ml_rows dl) ;;;
  dcheck dbg (last_col <? ml_cols dl) ;;;
  let bytes stride := wrap_s 32 (wrap_u 64 (4 * stride)) in
  Ok {| kf_lhs := p_data lp; kf_lhs_base := lhs_base;
        kf_rhs := p_data rp; kf_rhs_base := rhs_base;
        kf_dst_base := dst_base + start_row;
        kf_bias := match mp_bias mp with Some b => b | None => {| blen := n; bdat := fun _ => fs_zero fs |} end;
        kf_has_bias := match mp_bias mp with Some _ => true | None => false end;
        kf_channel_is_col := match mp_chan mp with ChCol => true | ChRow => false end;
        kf_start_row := start_row; kf_start_col := start_col; kf_last_row := last_row; kf_last_col := last_col;
        kf_dst_rows := ml_rows dl; kf_dst_cols := ml_cols dl;
        kf_lhs_stride := bytes (pl_stride (p_layout lp)); kf_rhs_stride := bytes (pl_stride (p_layout rp));
        kf_dst_stride := bytes (ml_stride dl);
        kf_depth := pl_rows (p_layout lp); kf_clamp_min := mp_min mp; kf_clamp_max := mp_max mp |}.

(** The number of iterations of [for (; i <= end - n; i += n)]. *)
Definition full_blocks (n start end_ : Z) : Z := Z.max 0 ((end_ - start) / n).

(** [params.lhs_stride >> 2] and the like. *)
Definition scaled (stride : Z) : Z := Z.shiftr stride 2.

Section Common.
Variables (n : Z) (p : fkparams V).
(** kernel_x86.h:600-617, kernel_avx512.cc:876-891: the pointers of a row block, a column block and the
    destination. *)
Definition bias_increment : Z := if kf_has_bias p then 1 else 0.
Definition kernel_end_row : Z := Z.min (kf_dst_rows p) (kf_last_row p + n).
Definition kernel_end_col : Z := Z.min (kf_dst_cols p) (kf_last_col p + n).
Definition lhs_col_ptr (row : Z) : Z :=
  kf_lhs_base p - kf_start_row p * scaled (kf_lhs_stride p) + row * scaled (kf_lhs_stride p).
Definition rhs_col_ptr (col : Z) : Z :=
  kf_rhs_base p - kf_start_col p * scaled (kf_rhs_stride p) + col * scaled (kf_rhs_stride p).
Definition fdst_ptr (row col : Z) : Z :=
  kf_dst_base p - kf_start_col p * scaled (kf_dst_stride p) - kf_start_row p + col * scaled (kf_dst_stride p) + row.

(** kernel_x86.h:637-650, 725-738, kernel_avx512.cc:912-940, 1031-1059, 1155-1167: the initial accumulators of
    eight columns. *)
Definition initial_accums (row col : Z) : res (list (list V)) :=
  if kf_channel_is_col p
  then rmap (fun j => b <- bread (kf_bias p) (col * bias_increment + j) ;; Ok (fset1 n b)) (zrange 0 8)
  else b <- fload n (kf_bias p) (row * bias_increment) ;; Ok (repeat b 8).

(** The clamping before each store. *)
Definition fclamp (acc : list V) : list V :=
  lanes2 (fs_max fs) (lanes2 (fs_min fs) acc (fset1 n (kf_clamp_max p))) (fset1 n (kf_clamp_min p)).

(** The loops over the columns that clamp and store with [store]; [ptr]: where the first goes. *)
Definition store_accums (store : list V -> Z -> buf V -> res (buf V)) (cols : Z) (accums : list (list V)) (ptr : Z) (dst : buf V)
  : res (buf V) :=
  forto 0 cols (fun j dst => store (fclamp (nth (Z.to_nat j) accums [])) (ptr + j * scaled (kf_dst_stride p)) dst) dst.

(** One multiply-add for each of eight columns. *)
Definition madd_columns (lhs_data : list V) (dups : list (list V)) (accums : list (list V)) : list (list V) :=
  map (fun '(dup, acc) => lanes3 (fs_madd fs) lhs_data dup acc) (combine dups accums).
End Common.

(** kernel_x86.h:286-293 (mm256_n_storeu_ps): the first lanes, one by one. *)
Definition n_storeu_ps (residual_rows : Z) (v : list V) (ptr : Z) (dst : buf V) : res (buf V) :=
  forto 0 residual_rows (fun i dst => bwrite dst (ptr + i) (nth (Z.to_nat i) v (fs_zero fs))) dst.

(** ** KernelFloatAvxCommon, kernel_x86.h:598-805 *)

(** kernel_x86.h:654-695, 742-783: one level of depth. *)
Definition step_avx (p : fkparams V) (lhs_ptr rhs_ptr : Z) (accums : list (list V)) : res (list (list V)) :=
  lhs_data <- fload 8 (kf_lhs p) lhs_ptr ;;
  rhs0_3 <- fload 4 (kf_rhs p) rhs_ptr ;;
  rhs4_7 <- fload 4 (kf_rhs p) (rhs_ptr + 4) ;;
  let dups v := map (permute_ps (fs_zero fs) (broadcast_ps v)) [0; 85; 170; 255] in
  Ok (madd_columns lhs_data (dups rhs0_3 ++ dups rhs4_7) accums).

(** kernel_x86.h:628-717 (the rows of a whole block of columns: [residual_cols] = 8 and [whole]) and 716-803 (the
    rest). *)
Definition tile_avx (p : fkparams V) (whole : bool) (residual_cols row col : Z) (dst : buf V) : res (buf V) :=
  let residual_rows := Z.min (kernel_end_row 8 p - row) 8 in
  accums <- initial_accums 8 p row col ;;
  accums <- forto 0 (kf_depth p)
    (fun d accums => step_avx p (lhs_col_ptr p row + 8 * d) (rhs_col_ptr p col + 8 * d) accums) accums ;;
  store_accums 8 p (if whole && (residual_rows =? 8) then fstore else n_storeu_ps residual_rows)
    residual_cols accums (fdst_ptr p row col) dst.

Definition kernel_float_avx (dbg : bool) (p : fkparams V) (dst : buf V) : res (buf V) :=
  let start_col := kf_start_col p in
  let end_col := kernel_end_col 8 p in
  let blocks := full_blocks 8 start_col end_col in
  let rows whole residual_cols col dst :=
    forstep (kf_start_row p) (kernel_end_row 8 p) 8 (fun row dst => tile_avx p whole residual_cols row col dst) dst in
  dst <- forto 0 blocks (fun b dst => rows true 8 (start_col + 8 * b) dst) dst ;;
  let col := start_col + 8 * blocks in
  if col <? end_col then
    dcheck dbg (0 <=? end_col - col) ;;;
    dcheck dbg (end_col - col <? 8) ;;;
    rows false (Z.min (end_col - col) 8) col dst
  else Ok dst.

(** ** KernelFloatAvxCommonSingleCol, kernel_x86.h:807-912 *)

(** One level of depth, kernel_x86.h:849-883, 898-907 and kernel_avx512.cc:1276-1284, 1307-1315. *)
Definition step_single (n : Z) (p : fkparams V) (lhs_ptr rhs_ptr : Z) (acc : list V) : res (list V) :=
  lhs_data <- fload n (kf_lhs p) lhs_ptr ;;
  x <- bread (kf_rhs p) rhs_ptr ;;
  Ok (lanes3 (fs_madd fs) lhs_data (fset1 n x) acc).

(** kernel_x86.h:839-889: whole blocks, unrolled by four. *)
Definition depth_by_4 (p : fkparams V) (lhs_ptr rhs_ptr : Z) (acc : list V) : res (list V) :=
  let fours := full_blocks 4 0 (kf_depth p) in
  acc <- forto 0 fours
    (fun b acc =>
       let l := lhs_ptr + 32 * b in
       let r := rhs_ptr + 32 * b in
       acc <- step_single 8 p l r acc ;;
       acc <- step_single 8 p (l + 8) (r + 8) acc ;;
       acc <- step_single 8 p (l + 16) (r + 16) acc ;;
       step_single 8 p (l + 24) (r + 24) acc) acc ;;
  forto (4 * fours) (kf_depth p) (fun d acc => step_single 8 p (lhs_ptr + 8 * d) (rhs_ptr + 8 * d) acc) acc.

Definition single_ptr (p : fkparams V) (row : Z) : Z := kf_dst_base p - kf_start_row p + row.

Definition kernel_float_avx_single_col (dbg : bool) (p : fkparams V) (dst : buf V) : res (buf V) :=
  dcheck dbg (kf_dst_cols p =? 1) ;;;
  dcheck dbg (kf_last_col p =? 0) ;;;
  dcheck dbg (kf_start_col p =? 0) ;;;
  let end_row := kernel_end_row 8 p in
  let blocks := full_blocks 8 (kf_start_row p) end_row in
  dst <- forto 0 blocks
    (fun b dst =>
       let row := kf_start_row p + 8 * b in
       acc <- fload 8 (kf_bias p) (row * bias_increment p) ;;
       acc <- depth_by_4 p (lhs_col_ptr p row) (kf_rhs_base p) acc ;;
       fstore (fclamp 8 p acc) (single_ptr p row) dst) dst ;;
  let row := kf_start_row p + 8 * blocks in
  if row <? end_row then
    let residual_rows := end_row - row in
    rcheck (1 <=? residual_rows) ;;;
    rcheck (residual_rows <? 8) ;;;
    acc <- fload 8 (kf_bias p) (row * bias_increment p) ;;
    acc <- forto 0 (kf_depth p) (fun d acc => step_single 8 p (lhs_col_ptr p row + 8 * d) (kf_rhs_base p + 8 * d) acc) acc ;;
    n_storeu_ps residual_rows (fclamp 8 p acc) (single_ptr p row) dst
  else Ok dst.

(** ** KernelFloatAvx512, kernel_avx512.cc:872-1236 *)

(** kernel_avx512.cc:945-970, 1064-1088, 1172-1182: one level of depth of eight columns. *)
Definition step_512 (p : fkparams V) (lhs_ptr rhs_ptr : Z) (accums : list (list V)) : res (list (list V)) :=
  lhs_data <- fload 16 (kf_lhs p) lhs_ptr ;;
  rhs_data <- rmap (fun j => bread (kf_rhs p) (rhs_ptr + j)) (zrange 0 8) ;;
  Ok (madd_columns lhs_data (map (fset1 16) rhs_data) accums).

(** The mask of the first rows. *)
Definition row_mask (residual_rows : Z) : list bool := bit_mask 16 (wrap_u 32 (Z.shiftl 1 residual_rows) - 1).

(** kernel_avx512.cc:901-1019 and 1021-1136: one half of a block of sixteen whole columns. The last level
    of depth is outside the loop. *)
Definition half_512 (p : fkparams V) (store : list V -> Z -> buf V -> res (buf V)) (row col mmm : Z) (dst : buf V) : res (buf V) :=
  let rhs_ptr := rhs_col_ptr p col + 8 * mmm in
  accums <- initial_accums 16 p row (col + 8 * mmm) ;;
  accums <- forto 0 (kf_depth p - 1)
    (fun d accums => step_512 p (lhs_col_ptr p row + 16 * d) (rhs_ptr + 16 * d) accums) accums ;;
  let last := Z.max 0 (kf_depth p - 1) in
  accums <- step_512 p (lhs_col_ptr p row + 16 * last) (rhs_ptr + 16 * last) accums ;;
  store_accums 16 p store 8 accums (fdst_ptr p row col + mmm * 8 * scaled (kf_dst_stride p)) dst.

(** kernel_avx512.cc:1152-1234: one half of a block of fewer columns. *)
Definition partial_half_512 (p : fkparams V) (row col mmm : Z) (dst : buf V) : res (buf V) :=
  let residual_rows := Z.min (kernel_end_row 16 p - row) 16 in
  let residual_cols := Z.min (kernel_end_col 16 p - col - 8 * mmm) 8 in
  let rhs_ptr := rhs_col_ptr p col + 8 * mmm in
  accums <- initial_accums 16 p row (col + 8 * mmm) ;;
  accums <- forto 0 (kf_depth p)
    (fun d accums => step_512 p (lhs_col_ptr p row + 16 * d) (rhs_ptr + 16 * d) accums) accums ;;
  store_accums 16 p (if residual_rows =? 16 then fstore else fmask_store (row_mask residual_rows)) residual_cols accums
    (fdst_ptr p row col + mmm * 8 * scaled (kf_dst_stride p)) dst.

Definition kernel_float_avx512 (dbg : bool) (p : fkparams V) (dst : buf V) : res (buf V) :=
  let start_row := kf_start_row p in
  let start_col := kf_start_col p in
  let end_row := kernel_end_row 16 p in
  let end_col := kernel_end_col 16 p in
  let col_blocks := full_blocks 16 start_col end_col in
  let row_blocks := full_blocks 16 start_row end_row in
  dst <- forto 0 col_blocks
    (fun b dst =>
       let col := start_col + 16 * b in
       dst <- forto 0 row_blocks (fun a dst => forto 0 2 (fun mmm dst => half_512 p fstore (start_row + 16 * a) col mmm dst) dst) dst ;;
       let row := start_row + 16 * row_blocks in
       if row <? end_row
       then forto 0 2 (fun mmm dst => half_512 p (fmask_store (row_mask (end_row - row))) row col mmm dst) dst
       else Ok dst) dst ;;
  let col := start_col + 16 * col_blocks in
  if col <? end_col then
    dcheck dbg (0 <=? end_col - col) ;;;
    dcheck dbg (end_col - col <? 16) ;;;
    forstep start_row end_row 16 (fun row dst => forto 0 2 (fun mmm dst => partial_half_512 p row col mmm dst) dst) dst
  else Ok dst.

(** ** KernelFloatAvx512SingleCol, kernel_avx512.cc:1238-1320 *)
Definition kernel_float_avx512_single_col (dbg : bool) (p : fkparams V) (dst : buf V) : res (buf V) :=
  dcheck dbg (kf_dst_cols p =? 1) ;;;
  dcheck dbg (kf_last_col p =? 0) ;;;
  dcheck dbg (kf_start_col p =? 0) ;;;
  let end_row := kernel_end_row 16 p in
  let blocks := full_blocks 16 (kf_start_row p) end_row in
  let block row store dst :=
    acc <- fload 16 (kf_bias p) (row * bias_increment p) ;;
    acc <- forto 0 (kf_depth p) (fun d acc => step_single 16 p (lhs_col_ptr p row + 16 * d) (kf_rhs_base p + 16 * d) acc) acc ;;
    store (fclamp 16 p acc) (single_ptr p row) dst in
  dst <- forto 0 blocks (fun b dst => block (kf_start_row p + 16 * b) fstore dst) dst ;;
  let row := kf_start_row p + 16 * blocks in
  if row <? end_row then
    let residual_rows := end_row - row in
    rcheck (1 <=? residual_rows) ;;;
    rcheck (residual_rows <? 16) ;;;
    block row (fmask_store (row_mask residual_rows)) dst
  else Ok dst.

(** ** kernel_x86.h:88-108, 160-185, 187-210: Kernel::Run; [wide]: on kAvx512 *)
Definition kernel_float_x86 (dbg wide : bool) (lp rp : pmat V) (mp : mul_params V)
    (start_row start_col end_row end_col : Z) (dl : mat_layout) (dst : buf V) : res (buf V) :=
  p <- make_kernel_params_float dbg (if wide then 16 else 8) lp rp mp start_row start_col end_row end_col dl ;;
  let single := (ml_cols dl =? 1) && match mp_chan mp with ChRow => true | ChCol => false end in
  match wide, single with
  | true, true => kernel_float_avx512_single_col dbg p dst
  | true, false => kernel_float_avx512 dbg p dst
  | false, true => kernel_float_avx_single_col dbg p dst
  | false, false => kernel_float_avx dbg p dst
  end.
End Kernels.
