(** Model of the packing of row-major matrices of bytes for Path::kNeon: PackImpl::Run of ruy/pack_arm.h:574-609 with
    Pack8bitRowMajorForNeon (ruy/pack_arm.cc:2252-2476) and its helpers. The function is written in intrinsics and is the same
    on 32-bit and 64-bit ARM. An int8x8_t, int16x8_t, int32x4_t is the list of its lanes, as signed values. Pointers are offsets;
    forming one is always defined, an access outside its buffer is undefined behaviour. *)
From Coq Require Import ZArith List Bool.
From Verif Require Import Base SidePair Mat Scalars IntOps Pack Kernel Kernel8bit KernelFloatX86.
Import ListNotations.
Open Scope Z_scope.

(** load_and_convert of one byte, pack_arm.cc:2307-2309; also src_ptr[...] ^ input_xor converted to int8_t, 2452. *)
Definition flip (input_xor v : Z) : Z := wrap_s 8 (Z.lxor input_xor (wrap_u 8 v)).

(** pack_arm.cc:2310-2380: row [r] of the block. In the regular case (2310) every row exists, so both branches are this test. *)
Definition row16 (src : buf Z) (input_xor off stride zp block_row rows : Z) (r : nat) : res (list Z) :=
  if block_row + Z.of_nat r <? rows
  then o <- i32 (Z.of_nat r * stride) ;;
       rmap (fun i => v <- bread src (off + o + Z.of_nat i) ;; Ok (flip input_xor v)) (seq 0 8)
  else Ok (repeat (wrap_s 8 zp) 8).

(** vtrn of two vectors: the even lanes of both, the odd lanes of both. *)
Fixpoint trn {A} (a b : list A) : list A * list A :=
  match a, b with
  | x0 :: x1 :: a, y0 :: y1 :: b => let '(e, o) := trn a b in (x0 :: y0 :: e, x1 :: y1 :: o)
  | _, _ => ([], [])
  end.
(** vreinterpret to lanes of twice the width, and back. *)
Fixpoint widen {A} (a : list A) : list (A * A) := match a with x :: y :: a => (x, y) :: widen a | _ => [] end.
Fixpoint narrow {A} (a : list (A * A)) : list A := match a with (x, y) :: a => x :: y :: narrow a | [] => [] end.

(** pack_arm.cc:2233-2237, 2239-2243, 2245-2249. *)
Definition transpose_8bit_vals (a b : list Z) : list Z * list Z := trn a b.
Definition transpose_16bit_vals (a b : list Z) : list Z * list Z :=
  let '(x, y) := trn (widen a) (widen b) in (narrow x, narrow y).
Definition transpose_32bit_vals (a b : list Z) : list Z * list Z :=
  let '(x, y) := trn (widen (widen a)) (widen (widen b)) in (narrow (narrow x), narrow (narrow y)).

(** A call of one of them on val[i], val[j]. *)
Definition on (f : list Z -> list Z -> list Z * list Z) (ij : nat * nat) (v : nat -> list Z) : nat -> list Z :=
  let '(i, j) := ij in let '(a, b) := f (v i) (v j) in
  fun n => if Nat.eqb n i then a else if Nat.eqb n j then b else v n.

(** pack_arm.cc:2404-2427. *)
Definition transposed (v : nat -> list Z) : nat -> list Z :=
  let v := fold_left (fun v ij => on transpose_8bit_vals ij v) [(0, 1); (2, 3); (4, 5); (6, 7); (8, 9); (10, 11); (12, 13); (14, 15)]%nat v in
  let v := fold_left (fun v ij => on transpose_16bit_vals ij v) [(0, 2); (1, 3); (4, 6); (5, 7); (8, 10); (9, 11); (12, 14); (13, 15)]%nat v in
  fold_left (fun v ij => on transpose_32bit_vals ij v) [(0, 4); (1, 5); (2, 6); (3, 7); (8, 12); (9, 13); (10, 14); (11, 15)]%nat v.

Definition lanes2 (f : Z -> Z -> Z) (a b : list Z) : list Z := map (fun '(x, y) => f x y) (combine a b).
(** vaddl_s8: of eight lanes, 16 bits wide; vaddq_s16; vaddw_s16 of the eight lanes of both halves. *)
Definition vaddl_s8 := lanes2 Z.add.
Definition vaddq_s16 := lanes2 (fun x y => wrap_s 16 (x + y)).
Definition vaddw_s16 := lanes2 (fun x y => wrap_s 32 (x + y)).

(** pack_arm.cc:2383-2393; [s] is sums0 followed by sums1. *)
Definition new_sums (v : nat -> list Z) (s : list Z) : list Z :=
  let s0 := vaddl_s8 (v 0%nat) (v 1%nat) in
  let s1 := vaddl_s8 (v 2%nat) (v 3%nat) in
  let s0 := vaddq_s16 s0 (vaddl_s8 (v 4%nat) (v 5%nat)) in
  let s1 := vaddq_s16 s1 (vaddl_s8 (v 6%nat) (v 7%nat)) in
  let s0 := vaddq_s16 s0 (vaddl_s8 (v 8%nat) (v 9%nat)) in
  let s1 := vaddq_s16 s1 (vaddl_s8 (v 10%nat) (v 11%nat)) in
  let s0 := vaddq_s16 s0 (vaddl_s8 (v 12%nat) (v 13%nat)) in
  let s1 := vaddq_s16 s1 (vaddl_s8 (v 14%nat) (v 15%nat)) in
  vaddw_s16 s (vaddq_s16 s0 s1).

(** pack_arm.cc:2432, 2439. *)
Definition two_columns (kernel_cols packed_stride : Z) : res Z := if kernel_cols =? 2 then i32 (2 * packed_stride) else Ok 32.

(** pack_arm.cc:2295-2442. The state: packed data, sums, the offsets src_ptr and packed_ptr. *)
Definition group16 (src : buf Z) (input_xor stride zp packed_stride kernel_cols block_row rows col : Z)
    (st : buf Z * buf Z * Z * Z) : res (buf Z * buf Z * Z * Z) :=
  let '(data, sums, off, poff) := st in
  s <- rmap (fun i => bread sums (col + Z.of_nat i)) (seq 0 8) ;;
  vals <- rmap (row16 src input_xor off stride zp block_row rows) (seq 0 16) ;;
  let v n := nth n vals [] in
  sums <- write_list (new_sums v s) col sums ;;
  let t := transposed v in
  let column i := t i ++ t (8 + i)%nat in
  data <- write_list (column 0%nat) poff data ;;
  data <- write_list (column 1%nat) (poff + 16) data ;;
  d <- two_columns kernel_cols packed_stride ;;
  data <- write_list (column 2%nat) (poff + d) data ;;
  data <- write_list (column 3%nat) (poff + d + 16) data ;;
  four <- i32 (4 * packed_stride) ;;
  let poff := poff + four in
  data <- write_list (column 4%nat) poff data ;;
  data <- write_list (column 5%nat) (poff + 16) data ;;
  d <- two_columns kernel_cols packed_stride ;;
  data <- write_list (column 6%nat) (poff + d) data ;;
  data <- write_list (column 7%nat) (poff + d + 16) data ;;
  Ok (data, sums, off + 8, poff + four).

(** pack_arm.cc:2461-2463, 2472-2474. *)
Definition next_packed (packed_stride kernel_cols col poff : Z) : res Z :=
  if Z.land (col + 1) (kernel_cols - 1) =? 0 then d <- i32 (kernel_cols * packed_stride) ;; Ok (poff + d) else Ok poff.

(** pack_arm.cc:2448-2463. The sixteen bytes are stored together here, after the loop has computed them; [accum] cannot overflow. *)
Definition single16 (src : buf Z) (input_xor stride zp packed_stride kernel_cols block_row rows col : Z)
    (st : buf Z * buf Z * Z * Z) : res (buf Z * buf Z * Z * Z) :=
  let '(data, sums, off, poff) := st in
  vals <- rmap (fun r => if block_row + Z.of_nat r <? rows
                         then o <- i32 (Z.of_nat r * stride) ;; x <- bread src (off + o) ;; Ok (flip input_xor x)
                         else Ok (wrap_s 8 zp)) (seq 0 16) ;;
  data <- write_list vals (poff + Z.land col (kernel_cols - 1) * 16) data ;;
  s <- bread sums col ;;
  s <- i32 (s + fold_right Z.add 0 vals) ;;
  sums <- bwrite sums col s ;;
  poff <- next_packed packed_stride kernel_cols col poff ;;
  Ok (data, sums, off + 1, poff).

(** pack_arm.cc:2470-2474. *)
Definition final16 (packed_stride kernel_cols col : Z) (st : buf Z * Z) : res (buf Z * Z) :=
  let '(data, poff) := st in
  data <- write_list (repeat 0 16) (poff + Z.land col (kernel_cols - 1) * 16) data ;;
  poff <- next_packed packed_stride kernel_cols col poff ;;
  Ok (data, poff).

(** Pack8bitRowMajorForNeon. *)
Definition pack_row16_block (src : buf Z) (input_xor off stride zp poff packed_stride kernel_cols start_col end_col src_cols block_row rows : Z)
    (st : buf Z * buf Z) : res (buf Z * buf Z) :=
  let src_end_col := Z.min end_col src_cols in
  let groups := (src_end_col - start_col) / 8 in
  s <- forto 0 groups
    (fun g s => group16 src input_xor stride zp packed_stride kernel_cols block_row rows (start_col + 8 * g) s)
    (fst st, snd st, off, poff) ;;
  let col := start_col + 8 * Z.max 0 groups in
  '(data, sums, _, poff) <- forto col src_end_col (single16 src input_xor stride zp packed_stride kernel_cols block_row rows) s ;;
  '(data, _) <- forto (Z.max col src_end_col) end_col (final16 packed_stride kernel_cols) (data, poff) ;;
  Ok (data, sums).

(** PackImpl::Run, pack_arm.h:579-607. There is no test that the array of sums exists. *)
Definition pack_row16_neon (dbg : bool) (kernel_cols : Z) (st : ity) (src : mat Z) (p : pmat Z)
    (start_col end_col : Z) : res (pmat Z) :=
  let input_xor := if it_signed st then 0 else 0x80 in
  dcheck dbg (order_eqb (ml_order (m_layout src)) RowMajor) ;;;
  n <- i32 (end_col - start_col) ;;
  dcheck dbg (Z.rem n kernel_cols =? 0) ;;;
  sums <- match p_sums p with None => UB | Some b => Ok b end ;;
  sums <- bzero 0 sums start_col n ;;
  let src_stride := ml_stride (m_layout src) in
  let packed_stride := pl_stride (p_layout p) in
  '(data, sums) <- forstep 0 (pl_rows (p_layout p)) 16
    (fun block_row st =>
       a <- i32 (block_row * src_stride) ;;
       b <- i32 (start_col * packed_stride) ;;
       c <- i32 (block_row * kernel_cols) ;;
       pack_row16_block (m_data src) input_xor (a + start_col) src_stride (p_zp p) (b + c) packed_stride kernel_cols
         start_col end_col (ml_cols (m_layout src)) block_row (ml_rows (m_layout src)) st)
    (p_data p, sums) ;;
  Ok {| p_data := data; p_sums := Some sums; p_layout := p_layout p; p_zp := p_zp p |}.
