(** Model of the 8-bit x86 kernels: MakeKernelParams8bit (ruy/kernel_common.h), the
    loops of Kernel8bitAvx512, Kernel8bitAvx2Impl, Kernel8bitAvxImpl and of their
    single-column versions, and the dispatch of ruy/kernel_x86.h.

    The three files spell out the same loops with different instructions; the loops
    are modelled once over a record of the instruction sequences that differ (their
    models are in Kernel8bitAvx.v). The accumulator variables accum_data_v0, ... are a
    list. Flags are booleans. Memory is typed: a buffer holds scalars, a pointer is an
    offset in bytes from its start (in scalars for the int8 LHS), and loads and stores
    outside the buffer are undefined behaviour. *)
From Coq Require Import ZArith List Bool.
From Verif Require Import Base SidePair Mat Scalars Pack IntOps MulParams Kernel Simd.
Import ListNotations.
Open Scope Z_scope.

(** sizeof. *)
Definition it_size (t : ity) : Z := it_bits t / 8.

(** ** Memory *)

(** A load of [n] scalars of [w] bytes. *)
Definition load (w : nat) (n : Z) (b : buf Z) (off : Z) : res vec :=
  if (0 <=? off) && (off + n <=? blen b) then Ok (of_lanes w (map (bdat b) (zrange off (off + n)))) else UB.
(** The same with the alignment required by load_si256: [align] bytes. The buffer
    itself is assumed aligned (allocator.h, kMinimumBlockAlignment). *)
Definition load_aligned (align : Z) (w : nat) (n : Z) (b : buf Z) (off : Z) : res vec :=
  if (Z.of_nat w * off) mod align =? 0 then load w n b off else UB.
(** The scalar a byte pointer points to. *)
Definition scalar_index (size p : Z) : res Z := if p mod size =? 0 then Ok (p / size) else UB.

Fixpoint write_list (l : list Z) (off : Z) (b : buf Z) : res (buf Z) :=
  match l with [] => Ok b | x :: l => b <- bwrite b off x ;; write_list l (off + 1) b end.
(** The bytes [v] stored as scalars of type [t]. *)
Definition store_bytes (t : ity) (v : vec) (off : Z) (b : buf Z) : res (buf Z) :=
  write_list (map (fun c => it_conv t (of_bytes c)) (chunks (Z.to_nat (it_size t)) v)) off b.

(** ** The instruction sequences *)
Record isa := {
  v_n : Z;                                      (* the block size: 8 or 16 *)
  v_align : Z;                                  (* alignment of the loads of packed data *)
  v_add : vec -> vec -> vec;
  v_sub : vec -> vec -> vec;
  v_mullo : vec -> vec -> vec;
  v_min : vec -> vec -> vec;
  v_max : vec -> vec -> vec;
  v_bias_col : vec -> Z -> vec;                 (* lane j of the bias in all lanes *)
  v_step : Z -> vec -> vec -> list vec -> list vec;   (* four levels of depth *)
  v_load1 : Z -> Z;                             (* RHS scalars loaded for one column *)
  v_trailing : bool;                            (* pointers advanced after the only column *)
  v_step1 : Z -> vec -> vec -> vec -> vec;      (* the same for one column *)
  v_requant : bool -> vec -> vec -> Z -> list vec -> list vec;
  v_requant1 : vec -> vec -> Z -> vec -> vec;
  v_store_full : ity -> vec -> Z -> buf Z -> res (buf Z);
  v_store : ity -> Z -> vec -> Z -> buf Z -> res (buf Z)   (* the first lanes only *)
}.
Definition v_nat (v : isa) : nat := Z.to_nat (v_n v).
Definition v_set1 (v : isa) (z : Z) : vec := set1 4 (v_nat v) z.

(** ** Parameters, kernel_common.h:94-131

    A pointer to int32 is a buffer read from its start. *)
Record kparams := {
  k_bias : buf Z; k_lhs_sums : buf Z; k_rhs_sums : buf Z;
  k_lhs : buf Z; k_lhs_base : Z;
  k_mult : buf Z; k_exp : buf Z;
  k_rhs : buf Z; k_rhs_base : Z;
  k_dst_base : Z;
  k_lhs_zp : Z; k_rhs_zp : Z; k_dst_zp : Z; k_prod_zp_depth : Z;
  k_start_row : Z; k_start_col : Z; k_last_row : Z; k_last_col : Z;
  k_dst_rows : Z; k_dst_cols : Z;
  k_lhs_stride : Z; k_rhs_stride : Z; k_dst_stride : Z;
  k_depth : Z; k_clamp_min : Z; k_clamp_max : Z;
  k_has_bias : bool; k_has_lhs_sums : bool; k_has_rhs_sums : bool;
  k_channel_is_col : bool; k_has_perchannel : bool;
  k_dst_type : ity; k_rhs_size : Z
}.

Definition const_buf (n z : Z) : buf Z := {| blen := n; bdat := fun _ => z |}.
(** An uninitialized pointer. *)
Definition no_buf : buf Z := const_buf 0 0.
Definition opt_buf (b : option (buf Z)) : buf Z := match b with Some b => b | None => no_buf end.
Definition is_some {A} (o : option A) : bool := match o with Some _ => true | None => false end.

(** kernel_common.h:133-217. [n] is LhsCols and RhsCols. The strides in bytes are
    computed as size_t and converted to int32; NEEDS_LEFT_SHIFT is not used by these
    kernels. *)
Definition make_kernel_params8bit (dbg : bool) (n : Z) (rt dt : ity) (lp rp : pmat Z) (mp : mul_params Z)
    (start_row start_col end_row end_col : Z) (dl : mat_layout) (dst_zp : Z) : res kparams :=
  let depth := pl_rows (p_layout lp) in
  dcheck dbg (Z.rem start_row n =? 0) ;;;
  dcheck dbg (Z.rem start_col n =? 0) ;;;
  dcheck dbg (Z.rem end_row n =? 0) ;;;
  dcheck dbg (Z.rem end_col n =? 0) ;;;
  lhs_base <- i32 (start_row * pl_stride (p_layout lp)) ;;
  rhs_base <- i32 (start_col * pl_stride (p_layout rp)) ;;
  last_row <- i32 (end_row - n) ;;
  last_col <- i32 (end_col - n) ;;
  zps <- i32 (p_zp lp * p_zp rp) ;;
  prod_zp_depth <- i32 (zps * depth) ;;
  mults <- match multiplier_fixedpoint_perchannel mp with
           | Some m =>
             rcheck (is_some (multiplier_exponent_perchannel mp)) ;;;
             Ok (m, opt_buf (multiplier_exponent_perchannel mp), true)
           | None => Ok (const_buf n (multiplier_fixedpoint mp), const_buf n (multiplier_exponent mp), false)
           end ;;
  dcheck dbg (last_row <? ml_rows dl) ;;;
  dcheck dbg (last_col <? ml_cols dl) ;;;
  dst_base <- i32 (start_col * ml_stride dl) ;;
  Ok {| k_bias := match mp_bias mp with Some b => b | None => const_buf n 0 end;
        k_lhs_sums := opt_buf (p_sums lp); k_rhs_sums := opt_buf (p_sums rp);
        k_lhs := p_data lp; k_lhs_base := lhs_base;
        k_mult := fst (fst mults); k_exp := snd (fst mults);
        k_rhs := p_data rp; k_rhs_base := it_size rt * rhs_base;
        k_dst_base := it_size dt * (dst_base + start_row);
        k_lhs_zp := p_zp lp; k_rhs_zp := p_zp rp; k_dst_zp := dst_zp; k_prod_zp_depth := prod_zp_depth;
        k_start_row := start_row; k_start_col := start_col; k_last_row := last_row; k_last_col := last_col;
        k_dst_rows := ml_rows dl; k_dst_cols := ml_cols dl;
        k_lhs_stride := pl_stride (p_layout lp);
        k_rhs_stride := wrap_s 32 (wrap_u 64 (it_size rt * pl_stride (p_layout rp)));
        k_dst_stride := wrap_s 32 (wrap_u 64 (it_size dt * ml_stride dl));
        k_depth := depth; k_clamp_min := mp_min mp; k_clamp_max := mp_max mp;
        k_has_bias := is_some (mp_bias mp); k_has_lhs_sums := is_some (p_sums lp);
        k_has_rhs_sums := is_some (p_sums rp);
        k_channel_is_col := match mp_chan mp with ChCol => true | ChRow => false end;
        k_has_perchannel := snd mults; k_dst_type := dt; k_rhs_size := it_size rt |}.

(** ** Kernel8bitAvx512 (kernel_avx512.cc:55-626), Kernel8bitAvx2Impl
    (kernel_avx2_fma.cc:102-734), Kernel8bitAvxImpl (kernel_avx.cc:443-1164) *)

(** kernel_avx2_fma.cc:132-143, kernel_avx512.cc:77-87, kernel_avx.cc:474-485. *)
Definition has_rhs_sums_offsets (p : kparams) : bool := k_has_rhs_sums p && negb (k_lhs_zp p =? 0).
Definition rhs_sums_offsets (v : isa) (p : kparams) (col : Z) : res (list Z) :=
  s <- load 4 (v_n v) (k_rhs_sums p) col ;;
  Ok (slanes 4 (v_mullo v (v_set1 v (k_lhs_zp p)) s)).

(** kernel_avx2_fma.cc:181-191, kernel_avx512.cc:130-139, kernel_avx.cc:526-543: the
    terms of the sums of the LHS. *)
Definition subtract_lhs_sums (v : isa) (p : kparams) (row : Z) (initial : vec) : res vec :=
  if k_has_lhs_sums p && negb (k_rhs_zp p =? 0) then
    s <- load 4 (v_n v) (k_lhs_sums p) row ;;
    Ok (v_sub v initial (v_mullo v (v_set1 v (k_rhs_zp p)) s))
  else Ok initial.

(** kernel_avx2_fma.cc:166-252, kernel_avx512.cc:114-247, kernel_avx.cc:508-599: the
    initial accumulators. (kernel_avx.cc loads the halves of vectors and the single
    biases of columns one by one.) *)
Definition initial_accumulators (v : isa) (p : kparams) (offsets : list Z) (row col : Z) : res (list vec) :=
  let initial := v_set1 v (k_prod_zp_depth p) in
  initial <- (if k_has_bias p && negb (k_channel_is_col p)
              then b <- load 4 (v_n v) (k_bias p) row ;; Ok (v_add v initial b)
              else Ok initial) ;;
  initial <- subtract_lhs_sums v p row initial ;;
  let accums := if has_rhs_sums_offsets p
                then map (fun o => v_sub v initial (v_set1 v o)) offsets
                else repeat initial (v_nat v) in
  if k_has_bias p && k_channel_is_col p
  then b <- load 4 (v_n v) (k_bias p) col ;;
       Ok (map2 (fun acc j => v_add v acc (v_bias_col v b j)) accums (zseq 0 (v_nat v)))
  else Ok accums.

(** kernel_avx2_fma.cc:253-353, kernel_avx512.cc:249-317, kernel_avx.cc:600-718: the
    loop over the depth. *)
Definition depth_loop (v : isa) (p : kparams) (lhs_col_ptr rhs_col_ptr : Z) (accums : list vec) : res (list vec) :=
  s <- forstep 0 (k_depth p) 4
    (fun _ s =>
       let '(accums, lhs_ptr, rhs_ptr) := s in
       lhs_data <- load_aligned (v_align v) 1 (4 * v_n v) (k_lhs p) lhs_ptr ;;
       r <- scalar_index (k_rhs_size p) rhs_ptr ;;
       rhs_data <- load_aligned (v_align v) (Z.to_nat (k_rhs_size p)) (4 * v_n v) (k_rhs p) r ;;
       Ok (v_step v (k_rhs_size p) lhs_data rhs_data accums,
           lhs_ptr + 4 * v_n v, rhs_ptr + 4 * v_n v * k_rhs_size p))
    (accums, lhs_col_ptr, rhs_col_ptr) ;;
  Ok (fst (fst s)).

(** kernel_avx2_fma.cc:355-363, 452-534, kernel_avx512.cc:319-325, 385-504,
    kernel_avx.cc:720-728, 822-918. *)
Definition requantize (v : isa) (p : kparams) (channel : Z) (accums : list vec) : res (list vec) :=
  if ity_eqb (k_dst_type p) s32 then Ok accums else
  let multiplier_channel := if k_has_perchannel p then channel else 0 in
  m <- load 4 (v_n v) (k_mult p) multiplier_channel ;;
  e <- load 4 (v_n v) (k_exp p) multiplier_channel ;;
  Ok (v_requant v (k_has_perchannel p && k_channel_is_col p) m e (k_dst_zp p) accums).

(** The clamping before each store of a type other than int32. *)
Definition clamp_block (v : isa) (p : kparams) (accum : vec) : vec :=
  if ity_eqb (k_dst_type p) s32 then accum
  else v_max v (v_min v accum (v_set1 v (k_clamp_max p))) (v_set1 v (k_clamp_min p)).

(** kernel_avx2_fma.cc:535-724, kernel_avx512.cc:505-617, kernel_avx.cc:919-1156; [ptr] is
    an offset in scalars. In the loop for incomplete blocks the files for AVX and AVX2 add
    the stride to the pointer, the file for AVX-512 multiplies. *)
Definition store_block (v : isa) (p : kparams) (dst_stride residual_rows residual_cols : Z) (accums : list vec)
    (ptr : Z) (dst : buf Z) : res (buf Z) :=
  if (residual_rows =? v_n v) && (residual_cols =? v_n v) then
    forto 0 (v_n v)
      (fun j dst => o <- i32 (j * dst_stride) ;;
         v_store_full v (k_dst_type p) (clamp_block v p (nth (Z.to_nat j) accums [])) (ptr + o) dst) dst
  else
    forto 0 residual_cols
      (fun j dst => o <- i32 (j * dst_stride) ;;
         v_store v (k_dst_type p) residual_rows (clamp_block v p (nth (Z.to_nat j) accums [])) (ptr + o) dst) dst.

(** kernel_avx2_fma.cc:145-726, kernel_avx512.cc:89-619, kernel_avx.cc:487-1158: one iteration over the rows. *)
Definition row_block (v : isa) (p : kparams) (dst_stride : Z) (offsets : list Z) (rhs_col_ptr col row : Z)
    (s : buf Z * Z * Z) : res (buf Z * Z * Z) :=
  let '(dst, lhs_col_ptr, dst_ptr) := s in
  let channel := if k_channel_is_col p then col else row in
  let residual_rows := Z.min (k_dst_rows p - row) (v_n v) in
  let residual_cols := Z.min (k_dst_cols p - col) (v_n v) in
  accums <- initial_accumulators v p offsets row col ;;
  accums <- depth_loop v p lhs_col_ptr rhs_col_ptr accums ;;
  accums <- requantize v p channel accums ;;
  ptr <- scalar_index (it_size (k_dst_type p)) dst_ptr ;;
  dst <- store_block v p dst_stride residual_rows residual_cols accums ptr dst ;;
  lhs_increment <- i32 (v_n v * k_lhs_stride p) ;;
  Ok (dst, lhs_col_ptr + lhs_increment, dst_ptr + v_n v * it_size (k_dst_type p)).

(** kernel_avx2_fma.cc:112-124: the stride in scalars; for int16 and int32 the division is
    one of size_t. *)
Definition dst_stride_scalars (p : kparams) : Z :=
  if it_bits (k_dst_type p) =? 8 then k_dst_stride p
  else wrap_s 32 (wrap_u 64 (k_dst_stride p) / it_size (k_dst_type p)).

Definition kernel8bit (v : isa) (p : kparams) (dst : buf Z) : res (buf Z) :=
  s <- forstep (k_start_col p) (k_last_col p + 1) (v_n v)
    (fun col s =>
       let '(dst, rhs_col_ptr, dst_col_ptr) := s in
       offsets <- (if has_rhs_sums_offsets p then rhs_sums_offsets v p col else Ok []) ;;
       s <- forstep (k_start_row p) (k_last_row p + 1) (v_n v)
              (row_block v p (dst_stride_scalars p) offsets rhs_col_ptr col) (dst, k_lhs_base p, dst_col_ptr) ;;
       dst_increment <- i32 (v_n v * k_dst_stride p) ;;
       rhs_increment <- i32 (v_n v * k_rhs_stride p) ;;
       Ok (fst (fst s), rhs_col_ptr + rhs_increment, dst_col_ptr + dst_increment))
    (dst, k_rhs_base p, k_dst_base p) ;;
  Ok (fst (fst s)).

(** ** Kernel8bitAvx512SingleCol (kernel_avx512.cc:628-870), Kernel8bitAvx2SingleColImpl
    (kernel_avx2_fma.cc:740-1017), Kernel8bitAvxSingleColImpl (kernel_avx.cc:1170-1460) *)

(** kernel_avx2_fma.cc:790-819, kernel_avx512.cc:664-693, kernel_avx.cc:1222-1250: the initial accumulator. *)
Definition initial_accumulator1 (v : isa) (p : kparams) (offsets : list Z) (bias_ptr row : Z) : res vec :=
  initial <- load 4 (v_n v) (k_bias p) bias_ptr ;;
  initial <- subtract_lhs_sums v p row initial ;;
  let initial := if k_prod_zp_depth p =? 0 then initial else v_add v initial (v_set1 v (k_prod_zp_depth p)) in
  Ok (if has_rhs_sums_offsets p then v_sub v initial (v_set1 v (nth 0 offsets 0)) else initial).

(** kernel_avx2_fma.cc:821-878, kernel_avx512.cc:695-743, kernel_avx.cc:1252-1303. *)
Definition depth_loop1 (v : isa) (p : kparams) (lhs_col_ptr rhs_col_ptr : Z) (accum : vec) : res vec :=
  s <- forstep 0 (k_depth p) 4
    (fun _ s =>
       let '(accum, lhs_ptr, rhs_ptr) := s in
       lhs_data <- load_aligned (v_align v) 1 (4 * v_n v) (k_lhs p) lhs_ptr ;;
       r <- scalar_index (k_rhs_size p) rhs_ptr ;;
       rhs_data <- load (Z.to_nat (k_rhs_size p)) (v_load1 v (k_rhs_size p)) (k_rhs p) r ;;
       Ok (v_step1 v (k_rhs_size p) lhs_data rhs_data accum,
           lhs_ptr + 4 * v_n v, rhs_ptr + 4 * v_n v * k_rhs_size p))
    (accum, lhs_col_ptr, rhs_col_ptr) ;;
  Ok (fst (fst s)).

(** kernel_avx2_fma.cc:880-968, kernel_avx512.cc:745-833, kernel_avx.cc:1305-1412. *)
Definition requantize1 (v : isa) (p : kparams) (row : Z) (accum : vec) : res vec :=
  if ity_eqb (k_dst_type p) s32 then Ok accum else
  let channel := if k_has_perchannel p then row else 0 in
  m <- load 4 (v_n v) (k_mult p) channel ;;
  e <- load 4 (v_n v) (k_exp p) channel ;;
  Ok (v_requant1 v m e (k_dst_zp p) accum).

(** kernel_avx2_fma.cc:782-1011, kernel_avx512.cc:660-869, kernel_avx.cc:1213-1455: one iteration over the rows. *)
Definition row_block1 (v : isa) (p : kparams) (offsets : list Z) (row : Z)
    (s : buf Z * Z * Z * Z) : res (buf Z * Z * Z * Z) :=
  let '(dst, lhs_col_ptr, dst_ptr, bias_ptr) := s in
  let residual_rows := Z.min (k_dst_rows p - row) (v_n v) in
  accum <- initial_accumulator1 v p offsets bias_ptr row ;;
  accum <- depth_loop1 v p lhs_col_ptr (k_rhs_base p) accum ;;
  accum <- requantize1 v p row accum ;;
  ptr <- scalar_index (it_size (k_dst_type p)) dst_ptr ;;
  dst <- v_store v (k_dst_type p) residual_rows (clamp_block v p accum) ptr dst ;;
  lhs_increment <- i32 (v_n v * k_lhs_stride p) ;;
  Ok (dst, lhs_col_ptr + lhs_increment, dst_ptr + v_n v * it_size (k_dst_type p),
      bias_ptr + (if k_has_bias p then v_n v else 0)).

(** The pointers advanced after the loop in the files for AVX and AVX2 are not used, but
    the products are computed. *)
Definition kernel8bit_single_col (dbg : bool) (v : isa) (p : kparams) (dst : buf Z) : res (buf Z) :=
  dcheck dbg (k_dst_cols p =? 1) ;;;
  dcheck dbg (k_last_col p =? 0) ;;;
  dcheck dbg (k_start_col p =? 0) ;;;
  offsets <- (if has_rhs_sums_offsets p then rhs_sums_offsets v p 0 else Ok []) ;;
  s <- forstep (k_start_row p) (k_last_row p + 1) (v_n v) (row_block1 v p offsets)
         (dst, k_lhs_base p, k_dst_base p, if k_has_bias p then k_start_row p else 0) ;;
  (if v_trailing v then i32 (v_n v * k_dst_stride p) ;;; i32 (v_n v * k_rhs_stride p) ;;; Ok tt else Ok tt) ;;;
  Ok (fst (fst (fst s))).

(** ** kernel_x86.h:40-86, 114-158, 209-232: Kernel::Run *)
Definition kernel_x86 (dbg : bool) (v : isa) (rt dt : ity) (lp rp : pmat Z) (mp : mul_params Z)
    (start_row start_col end_row end_col : Z) (dl : mat_layout) (dst_zp : Z) (dst : buf Z) : res (buf Z) :=
  p <- make_kernel_params8bit dbg (v_n v) rt dt lp rp mp start_row start_col end_row end_col dl dst_zp ;;
  if (ml_cols dl =? 1) && match mp_chan mp with ChRow => true | ChCol => false end
  then kernel8bit_single_col dbg v p dst
  else kernel8bit v p dst.
