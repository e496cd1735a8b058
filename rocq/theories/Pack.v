(** Model of ruy/pack.h (generic packing) and the memcpy fast path of
    ruy/pack_common.h. *)
From Verif Require Import Base SidePair SizeUtil Mat Scalars.

(** mat.h:246-275 (PEMat/PMat). *)
Record pmat (V : Type) := {
  p_data : buf V; p_sums : option (buf V); p_layout : pmat_layout; p_zp : Z }.
Arguments p_data {V}. Arguments p_sums {V}. Arguments p_layout {V}. Arguments p_zp {V}.

Definition pelement {V} (dbg : bool) (m : pmat V) (row col : Z) : res V :=
  o <- poffset dbg (p_layout m) row col ;; bread (p_data m) o.

(** pack.h:119-123: the value to store. *)
Definition packed_val {V} (o : ops V) (s : side) (src : mat V) (zp row col : Z) : res V :=
  if (col <? ml_cols (m_layout src)) && (row <? ml_rows (m_layout src))
  then x <- element src row col ;; Ok (o_pack o s x)
  else Ok (o_of_zp o s zp).

(** pack.h:117-126: the loop over rows of one column. *)
Definition pack_column {V} (dbg : bool) (o : ops V) (s : side) (src : mat V) (l : pmat_layout) (zp : Z)
    (col : Z) (data : buf V) : res (V * buf V) :=
  forto 0 (pl_rows l)
    (fun row '(accum, data) =>
       v <- packed_val o s src zp row col ;;
       accum' <- o_sum_add o s accum v ;;
       off <- poffset dbg l row col ;;
       data' <- bwrite data off v ;;
       Ok (accum', data'))
    (o_sum0 o s, data).

(** pack.h:127-129. *)
Definition store_sum {V} (sums : option (buf V)) (col : Z) (accum : V) : res (option (buf V)) :=
  match sums with
  | None => Ok None
  | Some b => b' <- bwrite b col accum ;; Ok (Some b')
  end.

(** pack.h:104-132 (PackImpl::Run) with the wrapper RunPack 137-154.
    [kcols] is FixedKernelLayout::kCols. *)
Definition run_pack {V} (dbg : bool) (o : ops V) (s : side) (kcols : Z) (src : mat V) (p : pmat V)
    (start_col end_col : Z) : res (pmat V) :=
  n <- i32 (end_col - start_col) ;;
  dcheck dbg (Z.rem n kcols =? 0) ;;;
  '(data, sums) <-
    forto start_col end_col
      (fun col '(data, sums) =>
         '(accum, data') <- pack_column dbg o s src (p_layout p) (p_zp p) col data ;;
         sums' <- store_sum sums col accum ;;
         Ok (data', sums'))
      (p_data p, p_sums p) ;;
  Ok {| p_data := data; p_sums := sums; p_layout := p_layout p; p_zp := p_zp p |}.

(** * The memcpy fast path for row-major float sources *)

(** memcpy of [n] elements. *)
Definition bcopy {V} (dst : buf V) (doff : Z) (src : buf V) (soff : Z) (n : Z) : res (buf V) :=
  forto 0 n (fun i d => v <- bread src (soff + i) ;; bwrite d (doff + i) v) dst.

(** memset to zero of [n] elements. *)
Definition bzero {V} (zero : V) (dst : buf V) (doff n : Z) : res (buf V) :=
  forto 0 n (fun i d => bwrite d (doff + i) zero) dst.

(** pack_common.h:124-131: [for (; col <= src_cols - KernelCols; col += KernelCols)];
    returns (packed_ptr, src_ptr, col) at exit. The trip count is
    [src_cols / KernelCols]. *)
Definition memcpy_row_blocks {V} (kc stride src_cols : Z) (src : buf V)
    (st : buf V * Z * Z * Z) : res (buf V * Z * Z * Z) :=
  forto 0 (src_cols / kc)
    (fun _ '(data, pp, sp, col) =>
       data' <- bcopy data pp src sp kc ;;
       d <- i32 (kc * stride) ;;
       Ok (data', pp + d, sp + kc, col + kc)) st.

(** pack_common.h:106-140. Pointers are element indices relative to the buffers. *)
Definition memcpy_pack {V} (dbg : bool) (zero : V) (kc : Z) (src : mat V) (p : pmat V)
    (start_col end_col : Z) : res (pmat V) :=
  dcheck dbg (order_eqb (ml_order (m_layout src)) RowMajor) ;;;
  dcheck dbg (order_eqb (pl_order (p_layout p)) ColMajor) ;;;
  dcheck dbg (Z.rem start_col kc =? 0) ;;;
  let src_stride := ml_stride (m_layout src) in
  data <- forto 0 (ml_rows (m_layout src))
    (fun block_row data =>
       a <- i32 (src_stride * block_row) ;;
       let src_ptr := a + start_col in
       b <- i32 (pl_stride (p_layout p) * start_col) ;;
       c <- i32 (kc * block_row) ;;
       let packed_ptr := b + c in
       let src_cols := Z.min end_col (ml_cols (m_layout src)) - start_col in
       '(data1, pp, sp, col) <-
         memcpy_row_blocks kc (pl_stride (p_layout p)) src_cols (m_data src) (data, packed_ptr, src_ptr, 0) ;;
       let remaining := src_cols - col in
       if 0 <? remaining then
         data2 <- bcopy data1 pp (m_data src) sp remaining ;;
         bzero zero data2 (pp + remaining) (kc - remaining)
       else Ok data1)
    (p_data p) ;;
  Ok {| p_data := data; p_sums := p_sums p; p_layout := p_layout p; p_zp := p_zp p |}.
