#!/bin/sh
# Regenerate the transcriptions of inline assembly in rocq/theories.
cd "$(dirname "$0")/../rocq/theories"
head_() {
cat <<EOF
(** $1

    Transcribed from the sources by tools/asm2coq.py: for each instruction its line and text. The operands of
    the asm statements are kept in registers chosen by the compiler, numbered from 40 here. *)
From Coq Require Import ZArith List.
From Verif Require Import Neon64.
Import ListNotations.
Open Scope Z_scope.

EOF
}
pack_regs() {
cat <<EOF
Local Notation src_ptr0 := 40%nat (only parsing).
Local Notation src_ptr1 := 41%nat (only parsing).
Local Notation src_ptr2 := 42%nat (only parsing).
Local Notation src_ptr3 := 43%nat (only parsing).
Local Notation src_inc0 := 44%nat (only parsing).
Local Notation src_inc1 := 45%nat (only parsing).
Local Notation src_inc2 := 46%nat (only parsing).
Local Notation src_inc3 := 47%nat (only parsing).
Local Notation packed_ptr := 48%nat (only parsing).
Local Notation sums_ptr := 49%nat (only parsing).
Local Notation rows := 50%nat (only parsing).
Local Notation src_zero_point := 51%nat (only parsing).
Local Notation input_xor := 52%nat (only parsing).
Local Notation src_cols := 53%nat (only parsing).
Local Notation packed_stride := 54%nat (only parsing).
EOF
}
{
head_ "The assembly of the packing functions for AArch64 in ruy/pack_arm.cc."
pack_regs
for f in Pack8bitColMajorForNeon:pack8_neon Pack8bitColMajorForNeonA55ish:pack8_neon_a55 \
  Pack8bitColMajorForNeonDotprod:pack8_dotprod Pack8bitColMajorForNeonDotprodA55ish:pack8_dotprod_a55 \
  Pack8bitRowMajorForNeonDotprod:pack8_row_dotprod \
  PackFloatColMajorForNeon@0:packf_neon PackFloatColMajorForNeonA55ish:packf_neon_a55; do
  echo; python3 ../../tools/asm2coq.py pack_arm.cc ${f%%:*} ${f##*:} 2>/dev/null
done
} > NeonPackCode.v

{
head_ "The assembly of the float kernels for AArch64 in ruy/kernel_arm64.cc."
i=40
for r in lhs_col_ptr rhs_col_ptr lhs_ptr rhs_ptr dst_col_ptr dst_ptr row col params dst_rows dst_cols dst_tmp_buf; do
  echo "Local Notation $r := $i%nat (only parsing)."; i=$((i+1))
done
for f in KernelFloatNeon:kernelf_neon KernelFloatNeonX1:kernelf_x1 KernelFloatNeonA55ish:kernelf_a55 \
  KernelFloatNeonDotprodA55ish:kernelf_dotprod_a55; do
  echo; python3 ../../tools/asm2coq.py kernel_arm64.cc ${f%%:*} ${f##*:} 2>/dev/null
done
} > NeonKernelCode.v
