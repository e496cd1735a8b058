(** Model of the packing of column-major matrices on AArch64: PackImpl::Run of ruy/pack_arm.h for
    Path::kNeon with blocks of 16x4 bytes (lines 141-217) and of 1x8 floats (361-414), and for
    Path::kNeonDotprod with blocks of 4x8 bytes (273-339), calling the functions of ruy/pack_arm.cc as
    transcribed in NeonPackCode.v.

    Floats are the 32-bit words that represent them. Computing a pointer outside of its array is not
    undefined behaviour here (the code computes src_ptr0 + src_stride for columns that do not exist, without
    reading from it); reading or writing outside of an array is. The assembly sees the memory as bytes. *)
From Coq Require Import ZArith List Bool.
From Verif Require Import Base SidePair Mat Scalars IntOps Pack Kernel Simd Neon64 NeonPackCode.
Import ListNotations.
Open Scope Z_scope.

(** ** Memory *)

(** An array of integers of [n] bytes, little-endian. *)
Definition enc (n : Z) (b : buf Z) : buf Z :=
  {| blen := n * blen b; bdat := fun i => bdat b (i / n) / 256 ^ (i mod n) mod 256 |}.
(** The bytes as an array of type [t]; [old] gives its length. *)
Definition dec (t : ity) (old : buf Z) (bytes : buf Z) : buf Z :=
  let n := it_bits t / 8 in
  {| blen := blen old;
     bdat := fun i => if (0 <=? i) && (i <? blen old) then it_conv t (of_bytes (get_bytes bytes (n * i) (Z.to_nat n))) else bdat old i |}.

(** The blocks of the source, of zerobuf, of the packed matrix and of the sums. *)
Definition src_block : nat := 0.
Definition zero_block : nat := 1.
Definition packed_block : nat := 2.
Definition sums_block : nat := 3.
Definition empty_block : block := Bytes {| blen := 0; bdat := fun _ => 0 |}.
Definition pack_memory (src zerobuf packed : buf Z) (sums : option (buf Z)) : memory :=
  fun k => match k with
  | 0%nat => Bytes src | 1%nat => Bytes zerobuf | 2%nat => Bytes packed
  | 3%nat => match sums with Some s => Bytes s | None => empty_block end
  | _ => empty_block
  end.

(** ** The functions *)
Record neon_packer := {
  n_size : Z;                       (* bytes of a scalar *)
  n_type : ity;                     (* packed scalars *)
  n_cols : Z;                       (* the kernel's columns: start_col is a multiple *)
  n_packed_ptr : Z -> Z -> res Z;   (* stride, block_col *)
  n_sums : bool;
  n_code : bool -> list instr       (* tuning == Tuning::kA55ish *)
}.
Definition neon_16x4 : neon_packer :=
  {| n_size := 1; n_type := s8; n_cols := 4;
     n_packed_ptr := fun stride block_col => i32 (stride * block_col);
     n_sums := true; n_code := fun a55 => if a55 then pack8_neon_a55 else pack8_neon |}.
Definition neon_4x8 : neon_packer :=
  {| n_size := 1; n_type := s8; n_cols := 8;
     n_packed_ptr := fun stride block_col => x <- i32 (stride * Z.land block_col (Z.lnot 7)) ;; Ok (x + Z.land block_col 4 * 4);
     n_sums := true; n_code := fun a55 => if a55 then pack8_dotprod_a55 else pack8_dotprod |}.
Definition neon_float : neon_packer :=
  {| n_size := 4; n_type := s32; n_cols := 8;
     n_packed_ptr := fun stride block_col => x <- i32 (stride * Z.land block_col (Z.lnot 7)) ;; Ok (x + Z.land block_col 4);
     n_sums := false; n_code := fun a55 => if a55 then packf_neon_a55 else packf_neon |}.

(** What the registers hold when the assembly starts: whatever the compiler has left there, in the upper halves of the
    operands of type int too. *)
Record leftover := { lo_xs : nat -> val; lo_vs : nat -> list Z; lo_fl : flags; lo_upper : nat -> Z }.
Definition int_reg (g : leftover) (k : nat) (z : Z) : val := Int (wrap_u 32 z + 2 ^ 32 * wrap_u 32 (lo_upper g k)).

(** The operands of the asm statements, pack_arm.cc:199-208, 825-833, 1071-1080, 1569-1580, 1868-1876, 2209-2214. *)
Definition start_regs (g : leftover) (ptr inc : nat -> val) (packed sums : val) (rows zero_point input_xor : Z) : nat -> val :=
  fun k => match k with
  | 40%nat => ptr 0%nat | 41%nat => ptr 1%nat | 42%nat => ptr 2%nat | 43%nat => ptr 3%nat
  | 44%nat => inc 0%nat | 45%nat => inc 1%nat | 46%nat => inc 2%nat | 47%nat => inc 3%nat
  | 48%nat => packed | 49%nat => sums
  | 50%nat => int_reg g 50 rows | 51%nat => int_reg g 51 zero_point | 52%nat => int_reg g 52 input_xor
  | _ => lo_xs g k
  end.

(** A bound for the instructions executed. *)
Definition pack_fuel (rows : Z) : nat := (400 + 50 * Z.to_nat (rows / 4))%nat.

(** ** PackImpl::Run *)

(** kInputXor. *)
Definition neon_xor (st : ity) : Z := if it_signed st then 0 else 128.

(** pack_arm.h:162-186, 294-318, 373-397: column [j] of the block; the offset is in scalars. *)
Definition neon_column (k : neon_packer) (off stride cols block_col : Z) (j : nat) : val * val :=
  if cols - Z.of_nat j <=? block_col then (Ptr zero_block 0, Int 0)
  else (Ptr src_block (n_size k * (off + Z.of_nat j * stride)), Int 16).

Definition neon_block (k : neon_packer) (a55 : bool) (g : leftover) (st : ity) (src : mat Z) (block_col : Z) (p : pmat Z) : res (pmat Z) :=
  let l := m_layout src in
  off <- i32 (ml_stride l * block_col) ;;
  po <- n_packed_ptr k (pl_stride (p_layout p)) block_col ;;
  let column := neon_column k off (ml_stride l) (ml_cols l) block_col in
  (* memset(zerobuf, zero_point, 16); float zerobuf[4] = {0.0f} *)
  let zerobuf := {| blen := 16; bdat := fun _ => if n_sums k then wrap_u 8 (m_zp src) else 0 |} in
  let sums := if n_sums k then match p_sums p with Some _ => Ptr sums_block (4 * block_col) | None => Int 0 end else lo_xs g 49 in
  let s0 := {| xs := start_regs g (fun j => fst (column j)) (fun j => snd (column j)) (Ptr packed_block (n_size k * po)) sums
                       (ml_rows l) (m_zp src) (neon_xor st);
               vs := fun i => firstn 16 (lo_vs g i ++ repeat 0 16); fl := lo_fl g;
               mem := pack_memory (enc (n_size k) (m_data src)) zerobuf (enc (n_size k) (p_data p)) (option_map (enc 4) (p_sums p)) |} in
  s <- run (pack_fuel (ml_rows l)) (n_code k a55) 0 s0 ;;
  match mem s packed_block, mem s sums_block with
  | Bytes d, Bytes s' =>
    Ok {| p_data := dec (n_type k) (p_data p) d; p_sums := option_map (fun old => dec s32 old s') (p_sums p);
          p_layout := p_layout p; p_zp := p_zp p |}
  | _, _ => UB
  end.

(** [gs block_col] is what the registers hold at the call. *)
Definition pack_neon (dbg : bool) (k : neon_packer) (a55 : bool) (gs : Z -> leftover) (st : ity) (src : mat Z) (p : pmat Z) (start_col end_col : Z) : res (pmat Z) :=
  dcheck dbg (order_eqb (ml_order (m_layout src)) ColMajor) ;;;
  dcheck dbg (order_eqb (pl_order (p_layout p)) ColMajor) ;;;
  dcheck dbg (Z.rem start_col (n_cols k) =? 0) ;;;
  forstep start_col end_col 4 (fun block_col p => neon_block k a55 (gs block_col) st src block_col p) p.
