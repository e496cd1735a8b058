(** Model of ruy/matrix.h and ruy/mat.h: matrix layouts, offsets, buffers. *)
From Verif Require Import Base SidePair SizeUtil.

(** matrix.h:29. *)
Inductive order := ColMajor | RowMajor.

Definition order_eqb (a b : order) : bool :=
  match a, b with ColMajor, ColMajor | RowMajor, RowMajor => true | _, _ => false end.

(** mat.h:105-112 (and the public Layout, matrix.h:32-52, with the same fields). *)
Record mat_layout := { ml_rows : Z; ml_cols : Z; ml_stride : Z; ml_order : order }.

(** mat.h:166-170. *)
Record kernel_layout := { kl_order : order; kl_rows : Z; kl_cols : Z }.

(** mat.h:178-188. *)
Record pmat_layout := {
  pl_rows : Z; pl_cols : Z; pl_stride : Z; pl_order : order; pl_kernel : kernel_layout }.

(** mat.h:359-372, matrix.h:199-211. *)
Definition offset (l : mat_layout) (row col : Z) : res Z :=
  let row_stride := match ml_order l with ColMajor => 1 | RowMajor => ml_stride l end in
  let col_stride := match ml_order l with RowMajor => 1 | ColMajor => ml_stride l end in
  a <- i32 (row * row_stride) ;; b <- i32 (col * col_stride) ;; i32 (a + b).

(** mat.h:375-395. *)
Definition poffset (dbg : bool) (l : pmat_layout) (row col : Z) : res Z :=
  let k := pl_kernel l in
  dcheck dbg (is_pot (kl_rows k)) ;;;
  dcheck dbg (is_pot (kl_cols k)) ;;;
  let row_outer := Z.land row (Z.lnot (kl_rows k - 1)) in
  let col_outer := Z.land col (Z.lnot (kl_cols k - 1)) in
  let row_stride_outer := match pl_order l with ColMajor => kl_cols k | RowMajor => pl_stride l end in
  let col_stride_outer := match pl_order l with RowMajor => kl_rows k | ColMajor => pl_stride l end in
  a <- i32 (row_outer * row_stride_outer) ;;
  b <- i32 (col_outer * col_stride_outer) ;;
  offset_outer <- i32 (a + b) ;;
  let row_inner := row - row_outer in
  let col_inner := col - col_outer in
  let row_stride_inner := match kl_order k with ColMajor => 1 | RowMajor => kl_cols k end in
  let col_stride_inner := match kl_order k with RowMajor => 1 | ColMajor => kl_rows k end in
  c <- i32 (row_inner * row_stride_inner) ;;
  d <- i32 (col_inner * col_stride_inner) ;;
  offset_inner <- i32 (c + d) ;;
  i32 (offset_outer + offset_inner).

(** mat.h:331-335: ptrdiff_t, 64 bits. *)
Definition flat_size (l : mat_layout) : res Z :=
  i64 (ml_stride l * match ml_order l with ColMajor => ml_cols l | RowMajor => ml_rows l end).

(** mat.h:353-357. *)
Definition pflat_size (l : pmat_layout) : res Z :=
  i64 (pl_stride l * match pl_order l with ColMajor => pl_cols l | RowMajor => pl_rows l end).

(** mat.h:444-446. *)
Definition transpose_order (o : order) : order :=
  match o with ColMajor => RowMajor | RowMajor => ColMajor end.

(** mat.h:448-453. *)
Definition transpose_layout (l : mat_layout) : mat_layout :=
  {| ml_rows := ml_cols l; ml_cols := ml_rows l; ml_stride := ml_stride l;
     ml_order := transpose_order (ml_order l) |}.

(** create_trmul_params.h:42-52. *)
Definition create_packed_layout (dbg : bool) (src : mat_layout) (k : kernel_layout) : res pmat_layout :=
  r <- round_up_pot dbg 32 (ml_rows src) (kl_rows k) ;;
  c <- round_up_pot dbg 32 (ml_cols src) (kl_cols k) ;;
  Ok {| pl_rows := r; pl_cols := c; pl_stride := r; pl_order := ColMajor; pl_kernel := k |}.

(** A memory buffer of [blen] elements. Accesses outside are undefined behaviour. *)
Record buf (V : Type) := { blen : Z; bdat : Z -> V }.
Arguments blen {V}. Arguments bdat {V}.

Definition bread {V} (b : buf V) (i : Z) : res V :=
  if (0 <=? i) && (i <? blen b) then Ok (bdat b i) else UB.

Definition bwrite {V} (b : buf V) (i : Z) (v : V) : res (buf V) :=
  if (0 <=? i) && (i <? blen b)
  then Ok {| blen := blen b; bdat := fun j => if j =? i then v else bdat b j |} else UB.

(** mat.h:121-126 / 246-252: a matrix: data, layout, zero point (kept as the
    int32 of the type-erased EMat). *)
Record mat (V : Type) := { m_data : buf V; m_layout : mat_layout; m_zp : Z }.
Arguments m_data {V}. Arguments m_layout {V}. Arguments m_zp {V}.

(** mat.h:455-460. *)
Definition transpose_mat {V} (m : mat V) : mat V :=
  {| m_data := m_data m; m_layout := transpose_layout (m_layout m); m_zp := m_zp m |}.

(** mat.h:399-412 (Element). *)
Definition element {V} (m : mat V) (row col : Z) : res V :=
  o <- offset (m_layout m) row col ;; bread (m_data m) o.

(** [for (int i = a; i < b; i++)] with a body that may fail. *)
Fixpoint forr {S} (n : nat) (i : Z) (body : Z -> S -> res S) (s : S) : res S :=
  match n with
  | O => Ok s
  | Datatypes.S m => s' <- body i s ;; forr m (i + 1) body s'
  end.
Definition forto {S} (a b : Z) (body : Z -> S -> res S) (s : S) : res S :=
  forr (Z.to_nat (b - a)) a body s.
