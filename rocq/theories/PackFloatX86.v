(** Model of the x86 packing functions for column-major float matrices: PackImpl::Run (ruy/pack_x86.h),
    PackFloatColMajorForAvxCommonPacker (ruy/pack_x86.h), PackFloatColMajorForAvx (ruy/pack_avx.cc),
    PackFloatColMajorForAvx2 (ruy/pack_avx2_fma.cc), and HalfPackFloatAvx512, ZeroHalfFloatAvx512,
    PackFloatColMajorForAvx512 (ruy/pack_avx512.cc).

    The functions only move scalars, which may be of any type here. As in PackX86.v the loops are
    modelled once over the instruction sequences that differ, the variables src_ptr0, ..., src_ptr7
    are a list, and computing a pointer outside its buffer is not undefined behaviour. The scalars of the
    uninitialised array trailing_buf are [None]; copying one is an error here (UB). *)
From Coq Require Import ZArith List Bool.
From Verif Require Import Base SidePair Mat Scalars Pack Kernel SimdFloat.
Import ListNotations.
Open Scope Z_scope.

Section Packing.
Context {V : Type}.
Variable zero : V.

(** ** The instruction sequences *)
Record float_packer := {
  fp_width : Z;                                        (* Layout::kCols: 8 or 16 *)
  fp_unroll : Z;                                       (* chunks of 8 rows in an iteration *)
  fp_mask : Z -> list bool;                            (* available rows to lanes loaded *)
  fp_transpose : list (list V) -> list (list V);       (* the 8 loads to the 8 halves or registers stored *)
  fp_order : list (nat * Z)                            (* the stores: register, row *)
}.

(** pack_x86.h:567-571, 592-626 and 641-677: two rounds of interleaving within groups, one between them. *)
Definition ftranspose_256 (t : list (list V)) : list (list V) :=
  match t with
  | [t0; t1; t2; t3; t4; t5; t6; t7] =>
    let r0 := unpacklo_ps t0 t1 in
    let r4 := unpacklo_ps t4 t5 in
    let r2 := unpackhi_ps t0 t1 in
    let r6 := unpackhi_ps t4 t5 in
    let r1 := unpacklo_ps t2 t3 in
    let r5 := unpacklo_ps t6 t7 in
    let r3 := unpackhi_ps t2 t3 in
    let r7 := unpackhi_ps t6 t7 in
    let t0 := unpacklo_pd r0 r1 in
    let t4 := unpacklo_pd r4 r5 in
    let t2 := unpackhi_pd r0 r1 in
    let t6 := unpackhi_pd r4 r5 in
    let t1 := unpacklo_pd r2 r3 in
    let t5 := unpacklo_pd r6 r7 in
    let t3 := unpackhi_pd r2 r3 in
    let t7 := unpackhi_pd r6 r7 in
    let r0 := permute2f128_ps t0 t4 32 in
    let r4 := permute2f128_ps t1 t5 32 in
    let r1 := permute2f128_ps t0 t4 49 in
    let r5 := permute2f128_ps t1 t5 49 in
    let r2 := permute2f128_ps t2 t6 32 in
    let r6 := permute2f128_ps t3 t7 32 in
    let r3 := permute2f128_ps t2 t6 49 in
    let r7 := permute2f128_ps t3 t7 49 in
    [r0; r1; r2; r3; r4; r5; r6; r7]
  | _ => []
  end.
(** pack_x86.h:628-635 (and 679-686, without the last). *)
Definition forder_256 : list (nat * Z) := [(0%nat, 0); (4%nat, 2); (1%nat, 4); (5%nat, 6); (2%nat, 1); (6%nat, 3); (3%nat, 5); (7%nat, 7)].

(** pack_avx512.cc:738-758, 775-793: LoaduTwo puts columns j and j + 4 in one register. The stores
    of the halves of r0, r1, r2, r3 are in the order of the list. *)
Definition ftranspose_512 (t : list (list V)) : list (list V) :=
  match t with
  | [s0; s1; s2; s3; s4; s5; s6; s7] =>
    let t0 := s0 ++ s4 in
    let t1 := s1 ++ s5 in
    let t2 := s2 ++ s6 in
    let t3 := s3 ++ s7 in
    let r0 := unpacklo_ps t0 t1 in
    let r2 := unpackhi_ps t0 t1 in
    let r1 := unpacklo_ps t2 t3 in
    let r3 := unpackhi_ps t2 t3 in
    let t0 := unpacklo_pd r0 r1 in
    let t2 := unpackhi_pd r0 r1 in
    let t1 := unpacklo_pd r2 r3 in
    let t3 := unpackhi_pd r2 r3 in
    let r0 := shuffle_f32x4 t0 t1 136 in
    let r1 := shuffle_f32x4 t0 t1 221 in
    let r2 := shuffle_f32x4 t2 t3 136 in
    let r3 := shuffle_f32x4 t2 t3 221 in
    [low_half r0; high_half r0; low_half r1; high_half r1; low_half r2; high_half r2; low_half r3; high_half r3]
  | _ => []
  end.
(** pack_avx512.cc:760-767 (and 795-802, without the last). *)
Definition forder_512 : list (nat * Z) := [(0%nat, 0); (1%nat, 2); (2%nat, 4); (3%nat, 6); (4%nat, 1); (5%nat, 3); (6%nat, 5); (7%nat, 7)].

(** CompareGreaterThan and maskload_ps, which looks at the sign of each int32 of the mask. On AVX2
    (pack_avx2_fma.cc:538-542) the comparison gives -1 or 0. On AVX (pack_avx.cc:676-683) the operands are converted to
    float, the result of the comparison has all bits set, which is a NaN, and its conversion to int32 gives -2^31. *)
Definition greater_avx2 (a b : Z) : Z := if b <? a then -1 else 0.
Definition greater_avx (a b : Z) : Z := if b <? a then - 2 ^ 31 else 0.
Definition sign_mask (greater : Z -> Z -> Z) (avail : Z) : list bool :=
  map (fun i => greater avail i <? 0) (zrange 0 8).

Definition float_avx : float_packer :=
  {| fp_width := 8; fp_unroll := 1; fp_mask := sign_mask greater_avx; fp_transpose := ftranspose_256; fp_order := forder_256 |}.
Definition float_avx2 : float_packer :=
  {| fp_width := 8; fp_unroll := 1; fp_mask := sign_mask greater_avx2; fp_transpose := ftranspose_256; fp_order := forder_256 |}.
(** pack_avx512.cc:769-770: the mask is an 8-bit integer. *)
Definition float_avx512 : float_packer :=
  {| fp_width := 16; fp_unroll := 2; fp_mask := fun avail => bit_mask 8 (wrap_u 8 (wrap_u 32 (Z.shiftl 1 avail) - 1));
     fp_transpose := ftranspose_512; fp_order := forder_512 |}.

(** ** The loops *)

(** A pointer to a column and its increment, pack_x86.h:525-573, pack_avx512.cc:691-736. *)
Record fcolumn := { fq_buf : buf V; fq_off : Z; fq_inc : Z }.
Definition fcolumn_ptr (src zerobuf : buf V) (off stride remaining j : Z) : fcolumn :=
  if remaining <=? j then {| fq_buf := zerobuf; fq_off := 0; fq_inc := 0 |}
  else {| fq_buf := src; fq_off := off + j * stride; fq_inc := 8 |}.
Definition fadvance (q : fcolumn) : fcolumn := {| fq_buf := fq_buf q; fq_off := fq_off q + fq_inc q; fq_inc := fq_inc q |}.

Fixpoint fload_all (f : fcolumn -> res (list V)) (qs : list fcolumn) : res (list (list V)) :=
  match qs with [] => Ok [] | q :: qs => v <- f q ;; vs <- fload_all f qs ;; Ok (v :: vs) end.
Fixpoint fstore_all {A} (put : list V -> list A) (w : Z) (rs : list (list V)) (order : list (nat * Z)) (p : Z) (b : buf A) : res (buf A) :=
  match order with
  | [] => Ok b
  | (i, row) :: order => b <- fstore (put (nth i rs [])) (p + row * w) b ;; fstore_all put w rs order p b
  end.

Record fstate := { fs_data : buf V; fs_trailing : buf (option V); fs_cols : list fcolumn; fs_packed : Z }.

(** One chunk of 8 rows, pack_x86.h:575-697, pack_avx512.cc:739-823. [toff]: the trailing_buf passed. *)
Definition fchunk (k : float_packer) (toff avail : Z) (s : fstate) : res fstate :=
  let finish data trailing :=
    Ok {| fs_data := data; fs_trailing := trailing; fs_cols := map fadvance (fs_cols s);
          fs_packed := fs_packed s + fp_width k * 8 |} in
  if 8 <=? avail then
    t <- fload_all (fun q => fload 8 (fq_buf q) (fq_off q)) (fs_cols s) ;;
    data <- fstore_all (fun v => v) (fp_width k) (fp_transpose k t) (fp_order k) (fs_packed s) (fs_data s) ;;
    finish data (fs_trailing s)
  else if 0 <? avail then
    t <- fload_all (fun q => fmask_load zero (fp_mask k avail) (fq_buf q) (fq_off q)) (fs_cols s) ;;
    trailing <- fstore_all (map Some) (fp_width k) (fp_transpose k t) (removelast (fp_order k)) toff (fs_trailing s) ;;
    finish (fs_data s) trailing
  else finish (fs_data s) (fs_trailing s).

(** PackFloatColMajorForAvxCommonPacker (pack_x86.h:511-698), HalfPackFloatAvx512 (pack_avx512.cc:687-826). *)
Definition fhalf_pack (k : float_packer) (src zerobuf : buf V) (off stride remaining rows poff toff : Z)
    (data : buf V) (trailing : buf (option V)) : res (buf V * buf (option V)) :=
  s <- forstep 0 rows (fp_unroll k * 8)
    (fun r s => forto 0 (fp_unroll k) (fun m s => fchunk k toff (rows - r - 8 * m) s) s)
    {| fs_data := data; fs_trailing := trailing;
       fs_cols := map (fcolumn_ptr src zerobuf off stride remaining) (zrange 0 8); fs_packed := poff |} ;;
  Ok (fs_data s, fs_trailing s).

(** ZeroHalfFloatAvx512, pack_avx512.cc:828-836. *)
Definition fzero_half (rows poff : Z) (data : buf V) : res (buf V) :=
  forto 0 (Z.land rows (Z.lnot 7)) (fun r data => bzero zero data (poff + 16 * r) 8) data.

(** pack_avx.cc:737-744, pack_avx2_fma.cc:598-604, pack_avx512.cc:986-992: memcpy from trailing_buf. *)
Definition fcopy_trailing (k : float_packer) (rows poff : Z) (trailing : buf (option V)) (data : buf V) : res (buf V) :=
  let trailing_rows := Z.land rows 7 in
  if 0 <? trailing_rows then
    d <- i32 (fp_width k * Z.land rows (Z.lnot 7)) ;;
    forto 0 (fp_width k * trailing_rows)
      (fun i data =>
         x <- bread trailing i ;;
         match x with Some v => bwrite data (poff + d + i) v | None => UB end) data
  else Ok data.

(** An array of [n] scalars on the stack, not initialised, or all [zero]. *)
Definition stack_array (n : Z) (cleared : bool) : buf (option V) :=
  {| blen := n; bdat := fun _ => if cleared then Some zero else None |}.

(** PackFloatColMajorForAvx (pack_avx.cc:726-745), PackFloatColMajorForAvx2 (pack_avx2_fma.cc:585-605),
    PackFloatColMajorForAvx512 (pack_avx512.cc:970-993). *)
Definition fpack_block (k : float_packer) (src zerobuf : buf V) (off stride remaining rows poff : Z) (data : buf V) : res (buf V) :=
  '(data, trailing) <-
    (if fp_width k =? 8 then
       fhalf_pack k src zerobuf off stride remaining rows poff 0 data (stack_array (7 * 8) (remaining <? 8))
     else if 8 <? remaining then
       '(data, trailing) <- fhalf_pack k src zerobuf off stride remaining rows poff 0 data (stack_array (7 * 16) false) ;;
       d <- i32 (stride * 8) ;;
       fhalf_pack k src zerobuf (off + d) stride (remaining - 8) rows (poff + 8) 8 data trailing
     else
       '(data, trailing) <- fhalf_pack k src zerobuf off stride remaining rows poff 0 data (stack_array (7 * 16) true) ;;
       data <- fzero_half rows (poff + 8) data ;;
       Ok (data, trailing)) ;;
  fcopy_trailing k rows poff trailing data.

(** PackImpl::Run for float and a column-major source, pack_x86.h:154-187, 189-222, 321-355. [zerobuf] has kCols zeros. *)
Definition pack_float_col (dbg : bool) (k : float_packer) (src : mat V) (p : pmat V) (start_col end_col : Z) : res (pmat V) :=
  dcheck dbg (order_eqb (ml_order (m_layout src)) ColMajor) ;;;
  dcheck dbg (order_eqb (pl_order (p_layout p)) ColMajor) ;;;
  n <- i32 (end_col - start_col) ;;
  dcheck dbg (Z.rem n (fp_width k) =? 0) ;;;
  dcheck dbg (Z.rem start_col (fp_width k) =? 0) ;;;
  let zerobuf := {| blen := fp_width k; bdat := fun _ => zero |} in
  let src_stride := ml_stride (m_layout src) in
  data <- forstep start_col end_col (fp_width k)
    (fun block_col data =>
       off <- i32 (src_stride * block_col) ;;
       remaining <- i32 (ml_cols (m_layout src) - block_col) ;;
       poff <- i32 (pl_stride (p_layout p) * Z.land block_col (Z.lnot (fp_width k - 1))) ;;
       fpack_block k (m_data src) zerobuf off src_stride remaining (ml_rows (m_layout src)) poff data)
    (p_data p) ;;
  Ok {| p_data := data; p_sums := p_sums p; p_layout := p_layout p; p_zp := p_zp p |}.
End Packing.
Arguments float_packer : clear implicits.
Arguments fcolumn : clear implicits.
Arguments fstate : clear implicits.
