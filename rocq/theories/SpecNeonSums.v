(** Operands packed for the kNeon kernels, and the pairs of products that overflow. *)
From Coq Require Import ZArith List Bool.
From Verif Require Import Base SidePair Mat Scalars Pack IntOps SpecMatrix SpecPack SpecPackX86 SpecPackNeon SpecPackNeonRow16 Neon64 NeonPack NeonPackRow16 NeonKernel8Code.
Import ListNotations.
Open Scope Z_scope.

(** A packed matrix of int8 in blocks of 16 levels and four columns. *)
Definition packed_cells (p : pmat Z) : Prop :=
  let l := p_layout p in
  pl_kernel l = bytes_16x4 /\ pl_order l = ColMajor /\ pl_stride l = pl_rows l /\
  0 < pl_rows l /\ (16 | pl_rows l) /\ 0 <= pl_cols l /\ (4 | pl_cols l) /\ pl_rows l * pl_cols l <= int_max /\
  pl_rows l * pl_cols l <= blen (p_data p) /\ typed s8 (p_data p).

(** A block of four columns from [c]. *)
Definition four_columns (p : pmat Z) (c : Z) : Prop := 0 <= c /\ c + 4 <= pl_cols (p_layout p) /\ (4 | c).

(** Levels, in the first half of their sixteen, at which both vectors are -128, as they are eight levels further. *)
Definition lowest_at (u v : Z -> Z) (k : Z) : bool :=
  (k mod 16 <? 8) && (u k =? -128) && (v k =? -128) && (u (k + 8) =? -128) && (v (k + 8) =? -128).
Definition overflows (u v : Z -> Z) (depth : Z) : Z := zsum (map (fun k => if lowest_at u v k then 1 else 0) (zrange 0 depth)).

(** The kernels, the number of instructions until the products are summed, and the columns they multiply. *)
Definition product_program (code : list instr) (len : nat) (cols : Z) : Prop :=
  (code = kernel8_1col /\ len = 60%nat /\ cols = 1) \/ (code = kernel8_neon /\ len = 157%nat /\ cols = 4) \/ (code = kernel8_a55 /\ len = 181%nat /\ cols = 4).

(** [q] is [p] after kNeon's functions have packed the columns [a, b) of [src] into it: from a column-major or a row-major matrix of bytes. *)
Definition neon_operand (st : ity) (src : mat Z) (p : pmat Z) (a b : Z) (q : pmat Z) : Prop :=
  (st = s8 \/ st = u8) /\ 0 < pl_rows (p_layout p) /\
  ((exists dbg a55 gs, neon_call bytes_16x4 s8 st src p a b /\ pack_neon dbg neon_16x4 a55 gs st src p a b = Ok q) \/
   (exists dbg, row16_call 4 src p a b /\ typed s8 (p_data p) /\ pack_row16_neon dbg 4 st src p a b = Ok q)).
