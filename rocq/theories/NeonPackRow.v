(** Model of the packing of row-major matrices of bytes for Path::kNeonDotprod on AArch64: PackImpl::Run of ruy/pack_arm.h:497-572,
    calling Pack8bitRowMajorForNeonDotprod (ruy/pack_arm.cc:1587-1737) as transcribed in NeonPackCode.v. Conventions as in NeonPack.v. *)
From Coq Require Import ZArith List Bool.
From Verif Require Import Base SidePair Mat Scalars IntOps Pack Kernel Simd Neon64 NeonPackCode NeonPack.
Import ListNotations.
Open Scope Z_scope.

(** The operands of the asm statement, pack_arm.cc:1724-1732. packed_stride is cast to std::int64_t; src_inc0, ... are converted to int (1589-1590). *)
Definition row_regs (g : leftover) (ptr : nat -> val) (inc : nat -> Z) (packed sums : val) (src_cols zero_point input_xor packed_stride : Z) : nat -> val :=
  fun k => match k with
  | 40%nat => ptr 0%nat | 41%nat => ptr 1%nat | 42%nat => ptr 2%nat | 43%nat => ptr 3%nat
  | 44%nat => int_reg g 44 (inc 0%nat) | 45%nat => int_reg g 45 (inc 1%nat) | 46%nat => int_reg g 46 (inc 2%nat) | 47%nat => int_reg g 47 (inc 3%nat)
  | 48%nat => packed | 49%nat => sums
  | 51%nat => int_reg g 51 zero_point | 52%nat => int_reg g 52 input_xor | 53%nat => int_reg g 53 src_cols
  | 54%nat => Int (wrap_u 64 packed_stride)
  | _ => lo_xs g k
  end.

(** A bound for the instructions executed. *)
Definition row_fuel (src_cols : Z) : nat := (400 + 50 * Z.to_nat (src_cols / 8))%nat.

(** pack_arm.h:526-556: row [j] of the block. *)
Definition neon_row (off stride rows block_row : Z) (j : nat) : val * Z :=
  if rows - Z.of_nat j <=? block_row then (Ptr zero_block 0, 0)
  else (Ptr src_block (off + Z.of_nat j * stride), 8).

(** pack_arm.h:521-569. *)
Definition neon_row_block (g : leftover) (st : ity) (src : mat Z) (start_col end_col block_row : Z) (p : pmat Z) : res (pmat Z) :=
  let l := m_layout src in
  off <- i32 (ml_stride l * block_row) ;;
  let row := neon_row (off + start_col) (ml_stride l) (ml_rows l) block_row in
  src_cols <- i32 (Z.min end_col (ml_cols l) - start_col) ;;
  x <- i32 (pl_stride (p_layout p) * start_col) ;;
  y <- i32 (8 * block_row) ;;
  (* memset(zerobuf, zero_point, 8) *)
  let zerobuf := {| blen := 8; bdat := fun _ => wrap_u 8 (m_zp src) |} in
  let sums := match p_sums p with Some _ => Ptr sums_block (4 * start_col) | None => Int 0 end in
  let s0 := {| xs := row_regs g (fun j => fst (row j)) (fun j => snd (row j)) (Ptr packed_block (x + y)) sums
                       src_cols (m_zp src) (neon_xor st) (pl_stride (p_layout p));
               vs := fun i => firstn 16 (lo_vs g i ++ repeat 0 16); fl := lo_fl g;
               mem := pack_memory (enc 1 (m_data src)) zerobuf (enc 1 (p_data p)) (option_map (enc 4) (p_sums p)) |} in
  s <- run (row_fuel src_cols) pack8_row_dotprod 0 s0 ;;
  match mem s packed_block, mem s sums_block with
  | Bytes d, Bytes s' =>
    Ok {| p_data := dec s8 (p_data p) d; p_sums := option_map (fun old => dec s32 old s') (p_sums p);
          p_layout := p_layout p; p_zp := p_zp p |}
  | _, _ => UB
  end.

(** pack_arm.h:512-513: memset(sums + start_col, 0, 4 * (end_col - start_col)). *)
Definition clear_sums (sums : option (buf Z)) (start_col end_col : Z) : res (option (buf Z)) :=
  match sums with
  | None => UB
  | Some s =>
    if (0 <=? start_col) && (start_col <=? end_col) && (end_col <=? blen s)
    then Ok (Some {| blen := blen s; bdat := fun i => if (start_col <=? i) && (i <? end_col) then 0 else bdat s i |})
    else UB
  end.

(** pack_arm.h:506-571. [gs block_row] is what the registers hold at the call. *)
Definition pack_row_neon (dbg : bool) (gs : Z -> leftover) (st : ity) (src : mat Z) (p : pmat Z) (start_col end_col : Z) : res (pmat Z) :=
  dcheck dbg (order_eqb (ml_order (m_layout src)) RowMajor) ;;;
  dcheck dbg (order_eqb (pl_order (p_layout p)) ColMajor) ;;;
  dcheck dbg (Z.rem start_col 8 =? 0) ;;;
  s <- clear_sums (p_sums p) start_col end_col ;;
  forstep 0 (pl_rows (p_layout p)) 4 (fun block_row p => neon_row_block (gs block_row) st src start_col end_col block_row p)
    {| p_data := p_data p; p_sums := s; p_layout := p_layout p; p_zp := p_zp p |}.
