(** The assembly of the packing functions for AArch64 in ruy/pack_arm.cc.

    Transcribed from the sources by tools/asm2coq.py: for each instruction its line and text. The operands of
    the asm statements are kept in registers chosen by the compiler, numbered from 40 here. *)
From Coq Require Import ZArith List.
From Verif Require Import Neon64.
Import ListNotations.
Open Scope Z_scope.

Local Notation src_ptr0 := 40%nat (only parsing).
Local Notation src_ptr1 := 41%nat (only parsing).
Local Notation src_ptr2 := 42%nat (only parsing).
Local Notation src_ptr3 := 43%nat (only parsing).
Local Notation src_inc0 := 44%nat (only parsing).
Local Notation src_inc1 := 45%nat (only parsing).
Local Notation src_inc2 := 46%nat (only parsing).
Local Notation src_inc3 := 47%nat (only parsing).
Local Notation packed_ptr := 48%nat (only parsing).
Local Notation sums_ptr := 49%nat (only parsing).
Local Notation rows := 50%nat (only parsing).
Local Notation src_zero_point := 51%nat (only parsing).
Local Notation input_xor := 52%nat (only parsing).
Local Notation src_cols := 53%nat (only parsing).
Local Notation packed_stride := 54%nat (only parsing).

(** pack_arm.cc:45-197, Pack8bitColMajorForNeon. *)
Definition pack8_neon : list instr := [
  Dup 1 16 26 input_xor; (* 45: dup v26.16b, %w[input_xor] *)
  Mov W 1 (Imm 0); (* 47: mov w1, #0 *)
  Movi 28 0; (* 49: movi v28.4s, #0 *)
  Movi 29 0; (* 50: movi v29.4s, #0 *)
  Movi 30 0; (* 51: movi v30.4s, #0 *)
  Movi 31 0; (* 52: movi v31.4s, #0 *)
  Alu AAnd true W 2 rows (Imm (-16)); (* 54: ands w2, %w[rows], #-16 *)
  B EQ (Fwd 3); (* 57: beq 3f *)
  Alu AAdd false W 1 1 (Imm 16); (* 59: add w1, w1, #16 *)
  Ld1 16 0 src_ptr0 (Reg src_inc0); (* 60: ld1 {v0.16b}, [%[src_ptr0]], %[src_inc0] *)
  Ld1 16 1 src_ptr1 (Reg src_inc1); (* 61: ld1 {v1.16b}, [%[src_ptr1]], %[src_inc1] *)
  Cmp W 1 (Reg 2); (* 63: cmp w1, w2 *)
  Ld1 16 2 src_ptr2 (Reg src_inc2); (* 64: ld1 {v2.16b}, [%[src_ptr2]], %[src_inc2] *)
  Ld1 16 3 src_ptr3 (Reg src_inc3); (* 65: ld1 {v3.16b}, [%[src_ptr3]], %[src_inc3] *)
  B EQ (Fwd 2); (* 68: beq 2f *)
  Label 1; (* 70: 1: *)
  Alu AAdd false W 1 1 (Imm 16); (* 73: add w1, w1, #16 *)
  V2 Eor 4 0 26; (* 74: eor v4.16b, v0.16b, v26.16b *)
  Ld1 16 0 src_ptr0 (Reg src_inc0); (* 75: ld1 {v0.16b}, [%[src_ptr0]], %[src_inc0] *)
  V2 Eor 5 1 26; (* 76: eor v5.16b, v1.16b, v26.16b *)
  Ld1 16 1 src_ptr1 (Reg src_inc1); (* 77: ld1 {v1.16b}, [%[src_ptr1]], %[src_inc1] *)
  V2 Eor 6 2 26; (* 78: eor v6.16b, v2.16b, v26.16b *)
  Ld1 16 2 src_ptr2 (Reg src_inc2); (* 79: ld1 {v2.16b}, [%[src_ptr2]], %[src_inc2] *)
  V2 Eor 7 3 26; (* 80: eor v7.16b, v3.16b, v26.16b *)
  Ld1 16 3 src_ptr3 (Reg src_inc3); (* 81: ld1 {v3.16b}, [%[src_ptr3]], %[src_inc3] *)
  Saddlp 1 16 4; (* 83: saddlp v16.8h, v4.16b *)
  StrQ 4 packed_ptr (Imm 0); (* 84: str q4, [%[packed_ptr], #0] *)
  Saddlp 1 17 5; (* 85: saddlp v17.8h, v5.16b *)
  StrQ 5 packed_ptr (Imm 16); (* 86: str q5, [%[packed_ptr], #16] *)
  Saddlp 1 18 6; (* 87: saddlp v18.8h, v6.16b *)
  StrQ 6 packed_ptr (Imm 32); (* 88: str q6, [%[packed_ptr], #32] *)
  Saddlp 1 19 7; (* 89: saddlp v19.8h, v7.16b *)
  StrQ 7 packed_ptr (Imm 48); (* 90: str q7, [%[packed_ptr], #48] *)
  Sadalp 2 28 16; (* 91: sadalp v28.4s, v16.8h *)
  Cmp W 1 (Reg 2); (* 93: cmp w1, w2 *)
  Sadalp 2 29 17; (* 94: sadalp v29.4s, v17.8h *)
  Alu AAdd false X packed_ptr packed_ptr (Imm 64); (* 95: add %[packed_ptr], %[packed_ptr], #64 *)
  Sadalp 2 30 18; (* 96: sadalp v30.4s, v18.8h *)
  Sadalp 2 31 19; (* 97: sadalp v31.4s, v19.8h *)
  B NE (Back 1); (* 99: bne 1b *)
  Label 2; (* 102: 2: *)
  V2 Eor 4 0 26; (* 105: eor v4.16b, v0.16b, v26.16b *)
  V2 Eor 5 1 26; (* 106: eor v5.16b, v1.16b, v26.16b *)
  V2 Eor 6 2 26; (* 107: eor v6.16b, v2.16b, v26.16b *)
  V2 Eor 7 3 26; (* 108: eor v7.16b, v3.16b, v26.16b *)
  Saddlp 1 16 4; (* 110: saddlp v16.8h, v4.16b *)
  StrQ 4 packed_ptr (Imm 0); (* 111: str q4, [%[packed_ptr], #0] *)
  Saddlp 1 17 5; (* 112: saddlp v17.8h, v5.16b *)
  StrQ 5 packed_ptr (Imm 16); (* 113: str q5, [%[packed_ptr], #16] *)
  Saddlp 1 18 6; (* 114: saddlp v18.8h, v6.16b *)
  StrQ 6 packed_ptr (Imm 32); (* 115: str q6, [%[packed_ptr], #32] *)
  Saddlp 1 19 7; (* 116: saddlp v19.8h, v7.16b *)
  StrQ 7 packed_ptr (Imm 48); (* 117: str q7, [%[packed_ptr], #48] *)
  Sadalp 2 28 16; (* 118: sadalp v28.4s, v16.8h *)
  Sadalp 2 29 17; (* 119: sadalp v29.4s, v17.8h *)
  Sadalp 2 30 18; (* 120: sadalp v30.4s, v18.8h *)
  Sadalp 2 31 19; (* 121: sadalp v31.4s, v19.8h *)
  Alu AAdd false X packed_ptr packed_ptr (Imm 64); (* 123: add %[packed_ptr], %[packed_ptr], #64 *)
  Label 3; (* 127: 3: *)
  Alu AAnd true W 2 rows (Imm 15); (* 129: ands w2, %w[rows], #15 *)
  B EQ (Fwd 4); (* 131: beq 4f *)
  Dup 1 16 0 src_zero_point; (* 134: dup v0.16b, %w[src_zero_point] *)
  Dup 1 16 1 src_zero_point; (* 135: dup v1.16b, %w[src_zero_point] *)
  Dup 1 16 2 src_zero_point; (* 136: dup v2.16b, %w[src_zero_point] *)
  Dup 1 16 3 src_zero_point; (* 137: dup v3.16b, %w[src_zero_point] *)
  Cmp W 2 (Imm 0); (* 146: cmp w2, #0 *)
  B EQ (Fwd 5); (* 146: beq 5f *)
  Ld1Lane 1 0 0 src_ptr0 (Imm 1); (* 146: ld1 { v0.b }[0], [%[src_ptr0]], #1 *)
  Ld1Lane 1 1 0 src_ptr1 (Imm 1); (* 146: ld1 { v1.b }[0], [%[src_ptr1]], #1 *)
  Ld1Lane 1 2 0 src_ptr2 (Imm 1); (* 146: ld1 { v2.b }[0], [%[src_ptr2]], #1 *)
  Ld1Lane 1 3 0 src_ptr3 (Imm 1); (* 146: ld1 { v3.b }[0], [%[src_ptr3]], #1 *)
  Cmp W 2 (Imm 1); (* 147: cmp w2, #1 *)
  B EQ (Fwd 5); (* 147: beq 5f *)
  Ld1Lane 1 0 1 src_ptr0 (Imm 1); (* 147: ld1 { v0.b }[1], [%[src_ptr0]], #1 *)
  Ld1Lane 1 1 1 src_ptr1 (Imm 1); (* 147: ld1 { v1.b }[1], [%[src_ptr1]], #1 *)
  Ld1Lane 1 2 1 src_ptr2 (Imm 1); (* 147: ld1 { v2.b }[1], [%[src_ptr2]], #1 *)
  Ld1Lane 1 3 1 src_ptr3 (Imm 1); (* 147: ld1 { v3.b }[1], [%[src_ptr3]], #1 *)
  Cmp W 2 (Imm 2); (* 148: cmp w2, #2 *)
  B EQ (Fwd 5); (* 148: beq 5f *)
  Ld1Lane 1 0 2 src_ptr0 (Imm 1); (* 148: ld1 { v0.b }[2], [%[src_ptr0]], #1 *)
  Ld1Lane 1 1 2 src_ptr1 (Imm 1); (* 148: ld1 { v1.b }[2], [%[src_ptr1]], #1 *)
  Ld1Lane 1 2 2 src_ptr2 (Imm 1); (* 148: ld1 { v2.b }[2], [%[src_ptr2]], #1 *)
  Ld1Lane 1 3 2 src_ptr3 (Imm 1); (* 148: ld1 { v3.b }[2], [%[src_ptr3]], #1 *)
  Cmp W 2 (Imm 3); (* 149: cmp w2, #3 *)
  B EQ (Fwd 5); (* 149: beq 5f *)
  Ld1Lane 1 0 3 src_ptr0 (Imm 1); (* 149: ld1 { v0.b }[3], [%[src_ptr0]], #1 *)
  Ld1Lane 1 1 3 src_ptr1 (Imm 1); (* 149: ld1 { v1.b }[3], [%[src_ptr1]], #1 *)
  Ld1Lane 1 2 3 src_ptr2 (Imm 1); (* 149: ld1 { v2.b }[3], [%[src_ptr2]], #1 *)
  Ld1Lane 1 3 3 src_ptr3 (Imm 1); (* 149: ld1 { v3.b }[3], [%[src_ptr3]], #1 *)
  Cmp W 2 (Imm 4); (* 150: cmp w2, #4 *)
  B EQ (Fwd 5); (* 150: beq 5f *)
  Ld1Lane 1 0 4 src_ptr0 (Imm 1); (* 150: ld1 { v0.b }[4], [%[src_ptr0]], #1 *)
  Ld1Lane 1 1 4 src_ptr1 (Imm 1); (* 150: ld1 { v1.b }[4], [%[src_ptr1]], #1 *)
  Ld1Lane 1 2 4 src_ptr2 (Imm 1); (* 150: ld1 { v2.b }[4], [%[src_ptr2]], #1 *)
  Ld1Lane 1 3 4 src_ptr3 (Imm 1); (* 150: ld1 { v3.b }[4], [%[src_ptr3]], #1 *)
  Cmp W 2 (Imm 5); (* 151: cmp w2, #5 *)
  B EQ (Fwd 5); (* 151: beq 5f *)
  Ld1Lane 1 0 5 src_ptr0 (Imm 1); (* 151: ld1 { v0.b }[5], [%[src_ptr0]], #1 *)
  Ld1Lane 1 1 5 src_ptr1 (Imm 1); (* 151: ld1 { v1.b }[5], [%[src_ptr1]], #1 *)
  Ld1Lane 1 2 5 src_ptr2 (Imm 1); (* 151: ld1 { v2.b }[5], [%[src_ptr2]], #1 *)
  Ld1Lane 1 3 5 src_ptr3 (Imm 1); (* 151: ld1 { v3.b }[5], [%[src_ptr3]], #1 *)
  Cmp W 2 (Imm 6); (* 152: cmp w2, #6 *)
  B EQ (Fwd 5); (* 152: beq 5f *)
  Ld1Lane 1 0 6 src_ptr0 (Imm 1); (* 152: ld1 { v0.b }[6], [%[src_ptr0]], #1 *)
  Ld1Lane 1 1 6 src_ptr1 (Imm 1); (* 152: ld1 { v1.b }[6], [%[src_ptr1]], #1 *)
  Ld1Lane 1 2 6 src_ptr2 (Imm 1); (* 152: ld1 { v2.b }[6], [%[src_ptr2]], #1 *)
  Ld1Lane 1 3 6 src_ptr3 (Imm 1); (* 152: ld1 { v3.b }[6], [%[src_ptr3]], #1 *)
  Cmp W 2 (Imm 7); (* 153: cmp w2, #7 *)
  B EQ (Fwd 5); (* 153: beq 5f *)
  Ld1Lane 1 0 7 src_ptr0 (Imm 1); (* 153: ld1 { v0.b }[7], [%[src_ptr0]], #1 *)
  Ld1Lane 1 1 7 src_ptr1 (Imm 1); (* 153: ld1 { v1.b }[7], [%[src_ptr1]], #1 *)
  Ld1Lane 1 2 7 src_ptr2 (Imm 1); (* 153: ld1 { v2.b }[7], [%[src_ptr2]], #1 *)
  Ld1Lane 1 3 7 src_ptr3 (Imm 1); (* 153: ld1 { v3.b }[7], [%[src_ptr3]], #1 *)
  Cmp W 2 (Imm 8); (* 154: cmp w2, #8 *)
  B EQ (Fwd 5); (* 154: beq 5f *)
  Ld1Lane 1 0 8 src_ptr0 (Imm 1); (* 154: ld1 { v0.b }[8], [%[src_ptr0]], #1 *)
  Ld1Lane 1 1 8 src_ptr1 (Imm 1); (* 154: ld1 { v1.b }[8], [%[src_ptr1]], #1 *)
  Ld1Lane 1 2 8 src_ptr2 (Imm 1); (* 154: ld1 { v2.b }[8], [%[src_ptr2]], #1 *)
  Ld1Lane 1 3 8 src_ptr3 (Imm 1); (* 154: ld1 { v3.b }[8], [%[src_ptr3]], #1 *)
  Cmp W 2 (Imm 9); (* 155: cmp w2, #9 *)
  B EQ (Fwd 5); (* 155: beq 5f *)
  Ld1Lane 1 0 9 src_ptr0 (Imm 1); (* 155: ld1 { v0.b }[9], [%[src_ptr0]], #1 *)
  Ld1Lane 1 1 9 src_ptr1 (Imm 1); (* 155: ld1 { v1.b }[9], [%[src_ptr1]], #1 *)
  Ld1Lane 1 2 9 src_ptr2 (Imm 1); (* 155: ld1 { v2.b }[9], [%[src_ptr2]], #1 *)
  Ld1Lane 1 3 9 src_ptr3 (Imm 1); (* 155: ld1 { v3.b }[9], [%[src_ptr3]], #1 *)
  Cmp W 2 (Imm 10); (* 156: cmp w2, #10 *)
  B EQ (Fwd 5); (* 156: beq 5f *)
  Ld1Lane 1 0 10 src_ptr0 (Imm 1); (* 156: ld1 { v0.b }[10], [%[src_ptr0]], #1 *)
  Ld1Lane 1 1 10 src_ptr1 (Imm 1); (* 156: ld1 { v1.b }[10], [%[src_ptr1]], #1 *)
  Ld1Lane 1 2 10 src_ptr2 (Imm 1); (* 156: ld1 { v2.b }[10], [%[src_ptr2]], #1 *)
  Ld1Lane 1 3 10 src_ptr3 (Imm 1); (* 156: ld1 { v3.b }[10], [%[src_ptr3]], #1 *)
  Cmp W 2 (Imm 11); (* 157: cmp w2, #11 *)
  B EQ (Fwd 5); (* 157: beq 5f *)
  Ld1Lane 1 0 11 src_ptr0 (Imm 1); (* 157: ld1 { v0.b }[11], [%[src_ptr0]], #1 *)
  Ld1Lane 1 1 11 src_ptr1 (Imm 1); (* 157: ld1 { v1.b }[11], [%[src_ptr1]], #1 *)
  Ld1Lane 1 2 11 src_ptr2 (Imm 1); (* 157: ld1 { v2.b }[11], [%[src_ptr2]], #1 *)
  Ld1Lane 1 3 11 src_ptr3 (Imm 1); (* 157: ld1 { v3.b }[11], [%[src_ptr3]], #1 *)
  Cmp W 2 (Imm 12); (* 158: cmp w2, #12 *)
  B EQ (Fwd 5); (* 158: beq 5f *)
  Ld1Lane 1 0 12 src_ptr0 (Imm 1); (* 158: ld1 { v0.b }[12], [%[src_ptr0]], #1 *)
  Ld1Lane 1 1 12 src_ptr1 (Imm 1); (* 158: ld1 { v1.b }[12], [%[src_ptr1]], #1 *)
  Ld1Lane 1 2 12 src_ptr2 (Imm 1); (* 158: ld1 { v2.b }[12], [%[src_ptr2]], #1 *)
  Ld1Lane 1 3 12 src_ptr3 (Imm 1); (* 158: ld1 { v3.b }[12], [%[src_ptr3]], #1 *)
  Cmp W 2 (Imm 13); (* 159: cmp w2, #13 *)
  B EQ (Fwd 5); (* 159: beq 5f *)
  Ld1Lane 1 0 13 src_ptr0 (Imm 1); (* 159: ld1 { v0.b }[13], [%[src_ptr0]], #1 *)
  Ld1Lane 1 1 13 src_ptr1 (Imm 1); (* 159: ld1 { v1.b }[13], [%[src_ptr1]], #1 *)
  Ld1Lane 1 2 13 src_ptr2 (Imm 1); (* 159: ld1 { v2.b }[13], [%[src_ptr2]], #1 *)
  Ld1Lane 1 3 13 src_ptr3 (Imm 1); (* 159: ld1 { v3.b }[13], [%[src_ptr3]], #1 *)
  Cmp W 2 (Imm 14); (* 160: cmp w2, #14 *)
  B EQ (Fwd 5); (* 160: beq 5f *)
  Ld1Lane 1 0 14 src_ptr0 (Imm 1); (* 160: ld1 { v0.b }[14], [%[src_ptr0]], #1 *)
  Ld1Lane 1 1 14 src_ptr1 (Imm 1); (* 160: ld1 { v1.b }[14], [%[src_ptr1]], #1 *)
  Ld1Lane 1 2 14 src_ptr2 (Imm 1); (* 160: ld1 { v2.b }[14], [%[src_ptr2]], #1 *)
  Ld1Lane 1 3 14 src_ptr3 (Imm 1); (* 160: ld1 { v3.b }[14], [%[src_ptr3]], #1 *)
  Label 5; (* 163: 5: *)
  V2 Eor 4 0 26; (* 166: eor v4.16b, v0.16b, v26.16b *)
  V2 Eor 5 1 26; (* 167: eor v5.16b, v1.16b, v26.16b *)
  V2 Eor 6 2 26; (* 168: eor v6.16b, v2.16b, v26.16b *)
  V2 Eor 7 3 26; (* 169: eor v7.16b, v3.16b, v26.16b *)
  Saddlp 1 16 4; (* 171: saddlp v16.8h, v4.16b *)
  Saddlp 1 17 5; (* 172: saddlp v17.8h, v5.16b *)
  Saddlp 1 18 6; (* 173: saddlp v18.8h, v6.16b *)
  Saddlp 1 19 7; (* 174: saddlp v19.8h, v7.16b *)
  Sadalp 2 28 16; (* 175: sadalp v28.4s, v16.8h *)
  Sadalp 2 29 17; (* 176: sadalp v29.4s, v17.8h *)
  Sadalp 2 30 18; (* 177: sadalp v30.4s, v18.8h *)
  Sadalp 2 31 19; (* 178: sadalp v31.4s, v19.8h *)
  StrQ 4 packed_ptr (Imm 0); (* 180: str q4, [%[packed_ptr], #0] *)
  StrQ 5 packed_ptr (Imm 16); (* 181: str q5, [%[packed_ptr], #16] *)
  StrQ 6 packed_ptr (Imm 32); (* 182: str q6, [%[packed_ptr], #32] *)
  StrQ 7 packed_ptr (Imm 48); (* 183: str q7, [%[packed_ptr], #48] *)
  Alu AAdd false X packed_ptr packed_ptr (Imm 64); (* 184: add %[packed_ptr], %[packed_ptr], #64 *)
  Label 4; (* 186: 4: *)
  V2 (Addp 4) 28 28 29; (* 189: addp v28.4s, v28.4s, v29.4s *)
  V2 (Addp 4) 30 30 31; (* 190: addp v30.4s, v30.4s, v31.4s *)
  V2 (Addp 4) 28 28 30; (* 191: addp v28.4s, v28.4s, v30.4s *)
  Cmp X sums_ptr (Imm 0); (* 194: cmp %[sums_ptr], #0 *)
  B EQ (Fwd 6); (* 195: beq 6f *)
  St1 16 28 sums_ptr (Imm 16); (* 196: st1 {v28.4s}, [%[sums_ptr]], #16 *)
  Label 6 (* 197: 6: *)
].

(** pack_arm.cc:640-823, Pack8bitColMajorForNeonA55ish. *)
Definition pack8_neon_a55 : list instr := [
  Dup 1 16 26 input_xor; (* 640: dup v26.16b, %w[input_xor] *)
  Mov W 1 (Imm 0); (* 642: mov w1, #0 *)
  Movi 28 0; (* 644: movi v28.4s, #0 *)
  Movi 29 0; (* 645: movi v29.4s, #0 *)
  Movi 30 0; (* 646: movi v30.4s, #0 *)
  Movi 31 0; (* 647: movi v31.4s, #0 *)
  Alu AAnd true W 2 rows (Imm (-16)); (* 649: ands w2, %w[rows], #-16 *)
  B EQ (Fwd 3); (* 652: beq 3f *)
  Alu AAdd false W 1 1 (Imm 16); (* 654: add w1, w1, #16 *)
  Ldr 8 10 src_ptr0 (Imm 8); (* 655: ldr x10, [%[src_ptr0], #8] *)
  Ld1 8 0 src_ptr0 (Reg src_inc0); (* 656: ld1 {v0.8b}, [%[src_ptr0]], %[src_inc0] *)
  Ldr 8 11 src_ptr1 (Imm 8); (* 657: ldr x11, [%[src_ptr1], #8] *)
  Ld1 8 1 src_ptr1 (Reg src_inc1); (* 658: ld1 {v1.8b}, [%[src_ptr1]], %[src_inc1] *)
  Ldr 8 12 src_ptr2 (Imm 8); (* 659: ldr x12, [%[src_ptr2], #8] *)
  Ld1 8 2 src_ptr2 (Reg src_inc2); (* 660: ld1 {v2.8b}, [%[src_ptr2]], %[src_inc2] *)
  Ldr 8 13 src_ptr3 (Imm 8); (* 661: ldr x13, [%[src_ptr3], #8] *)
  Ld1 8 3 src_ptr3 (Reg src_inc3); (* 662: ld1 {v3.8b}, [%[src_ptr3]], %[src_inc3] *)
  Cmp W 1 (Reg 2); (* 664: cmp w1, w2 *)
  Nop; (* 665: prfm pldl1strm, [%[src_ptr0], #64] *)
  Nop; (* 666: prfm pldl1strm, [%[src_ptr1], #64] *)
  Nop; (* 667: prfm pldl1strm, [%[src_ptr2], #64] *)
  Nop; (* 668: prfm pldl1strm, [%[src_ptr3], #64] *)
  Nop; (* 669: prfm pldl1strm, [%[src_ptr0], #128] *)
  Nop; (* 670: prfm pldl1strm, [%[src_ptr1], #128] *)
  Nop; (* 671: prfm pldl1strm, [%[src_ptr2], #128] *)
  Nop; (* 672: prfm pldl1strm, [%[src_ptr3], #128] *)
  Nop; (* 673: prfm pldl1strm, [%[src_ptr0], #192] *)
  Nop; (* 674: prfm pldl1strm, [%[src_ptr1], #192] *)
  Nop; (* 675: prfm pldl1strm, [%[src_ptr2], #192] *)
  Nop; (* 676: prfm pldl1strm, [%[src_ptr3], #192] *)
  B EQ (Fwd 2); (* 679: beq 2f *)
  Label 1; (* 681: 1: *)
  Alu AAdd false W 1 1 (Imm 16); (* 684: add w1, w1, #16 *)
  Ins 8 0 1 10; (* 685: ins v0.d[1], x10 *)
  Ldr 8 10 src_ptr0 (Imm 8); (* 686: ldr x10, [%[src_ptr0], #8] *)
  Ins 8 1 1 11; (* 687: ins v1.d[1], x11 *)
  Ldr 8 11 src_ptr1 (Imm 8); (* 688: ldr x11, [%[src_ptr1], #8] *)
  Ins 8 2 1 12; (* 689: ins v2.d[1], x12 *)
  Ldr 8 12 src_ptr2 (Imm 8); (* 690: ldr x12, [%[src_ptr2], #8] *)
  Ins 8 3 1 13; (* 691: ins v3.d[1], x13 *)
  Ldr 8 13 src_ptr3 (Imm 8); (* 692: ldr x13, [%[src_ptr3], #8] *)
  V2 Eor 4 0 26; (* 693: eor v4.16b, v0.16b, v26.16b *)
  Ld1 8 0 src_ptr0 (Reg src_inc0); (* 694: ld1 {v0.8b}, [%[src_ptr0]], %[src_inc0] *)
  V2 Eor 5 1 26; (* 695: eor v5.16b, v1.16b, v26.16b *)
  Ld1 8 1 src_ptr1 (Reg src_inc1); (* 696: ld1 {v1.8b}, [%[src_ptr1]], %[src_inc1] *)
  V2 Eor 6 2 26; (* 697: eor v6.16b, v2.16b, v26.16b *)
  Ld1 8 2 src_ptr2 (Reg src_inc2); (* 698: ld1 {v2.8b}, [%[src_ptr2]], %[src_inc2] *)
  V2 Eor 7 3 26; (* 699: eor v7.16b, v3.16b, v26.16b *)
  Ld1 8 3 src_ptr3 (Reg src_inc3); (* 700: ld1 {v3.8b}, [%[src_ptr3]], %[src_inc3] *)
  Saddlp 1 16 4; (* 702: saddlp v16.8h, v4.16b *)
  StrQ 4 packed_ptr (Imm 0); (* 703: str q4, [%[packed_ptr], #0] *)
  Saddlp 1 17 5; (* 704: saddlp v17.8h, v5.16b *)
  StrQ 5 packed_ptr (Imm 16); (* 705: str q5, [%[packed_ptr], #16] *)
  Saddlp 1 18 6; (* 706: saddlp v18.8h, v6.16b *)
  StrQ 6 packed_ptr (Imm 32); (* 707: str q6, [%[packed_ptr], #32] *)
  Saddlp 1 19 7; (* 708: saddlp v19.8h, v7.16b *)
  StrQ 7 packed_ptr (Imm 48); (* 709: str q7, [%[packed_ptr], #48] *)
  Sadalp 2 28 16; (* 710: sadalp v28.4s, v16.8h *)
  Nop; (* 711: prfm pldl1strm, [%[src_ptr0], #240] *)
  Cmp W 1 (Reg 2); (* 713: cmp w1, w2 *)
  Sadalp 2 29 17; (* 714: sadalp v29.4s, v17.8h *)
  Nop; (* 715: prfm pldl1strm, [%[src_ptr1], #240] *)
  Alu AAdd false X packed_ptr packed_ptr (Imm 64); (* 716: add %[packed_ptr], %[packed_ptr], #64 *)
  Sadalp 2 30 18; (* 717: sadalp v30.4s, v18.8h *)
  Nop; (* 718: prfm pldl1strm, [%[src_ptr2], #240] *)
  Sadalp 2 31 19; (* 719: sadalp v31.4s, v19.8h *)
  Nop; (* 720: prfm pldl1strm, [%[src_ptr3], #240] *)
  B NE (Back 1); (* 722: bne 1b *)
  Label 2; (* 725: 2: *)
  Ins 8 0 1 10; (* 727: ins v0.d[1], x10 *)
  Ins 8 1 1 11; (* 728: ins v1.d[1], x11 *)
  Ins 8 2 1 12; (* 729: ins v2.d[1], x12 *)
  Ins 8 3 1 13; (* 730: ins v3.d[1], x13 *)
  V2 Eor 4 0 26; (* 731: eor v4.16b, v0.16b, v26.16b *)
  V2 Eor 5 1 26; (* 732: eor v5.16b, v1.16b, v26.16b *)
  V2 Eor 6 2 26; (* 733: eor v6.16b, v2.16b, v26.16b *)
  V2 Eor 7 3 26; (* 734: eor v7.16b, v3.16b, v26.16b *)
  Saddlp 1 16 4; (* 736: saddlp v16.8h, v4.16b *)
  StrQ 4 packed_ptr (Imm 0); (* 737: str q4, [%[packed_ptr], #0] *)
  Saddlp 1 17 5; (* 738: saddlp v17.8h, v5.16b *)
  StrQ 5 packed_ptr (Imm 16); (* 739: str q5, [%[packed_ptr], #16] *)
  Saddlp 1 18 6; (* 740: saddlp v18.8h, v6.16b *)
  StrQ 6 packed_ptr (Imm 32); (* 741: str q6, [%[packed_ptr], #32] *)
  Saddlp 1 19 7; (* 742: saddlp v19.8h, v7.16b *)
  StrQ 7 packed_ptr (Imm 48); (* 743: str q7, [%[packed_ptr], #48] *)
  Sadalp 2 28 16; (* 744: sadalp v28.4s, v16.8h *)
  Sadalp 2 29 17; (* 745: sadalp v29.4s, v17.8h *)
  Sadalp 2 30 18; (* 746: sadalp v30.4s, v18.8h *)
  Sadalp 2 31 19; (* 747: sadalp v31.4s, v19.8h *)
  Alu AAdd false X packed_ptr packed_ptr (Imm 64); (* 749: add %[packed_ptr], %[packed_ptr], #64 *)
  Label 3; (* 753: 3: *)
  Alu AAnd true W 2 rows (Imm 15); (* 755: ands w2, %w[rows], #15 *)
  B EQ (Fwd 4); (* 757: beq 4f *)
  Dup 1 16 0 src_zero_point; (* 760: dup v0.16b, %w[src_zero_point] *)
  Dup 1 16 1 src_zero_point; (* 761: dup v1.16b, %w[src_zero_point] *)
  Dup 1 16 2 src_zero_point; (* 762: dup v2.16b, %w[src_zero_point] *)
  Dup 1 16 3 src_zero_point; (* 763: dup v3.16b, %w[src_zero_point] *)
  Cmp W 2 (Imm 0); (* 772: cmp w2, #0 *)
  B EQ (Fwd 5); (* 772: beq 5f *)
  Ld1Lane 1 0 0 src_ptr0 (Imm 1); (* 772: ld1 { v0.b }[0], [%[src_ptr0]], #1 *)
  Ld1Lane 1 1 0 src_ptr1 (Imm 1); (* 772: ld1 { v1.b }[0], [%[src_ptr1]], #1 *)
  Ld1Lane 1 2 0 src_ptr2 (Imm 1); (* 772: ld1 { v2.b }[0], [%[src_ptr2]], #1 *)
  Ld1Lane 1 3 0 src_ptr3 (Imm 1); (* 772: ld1 { v3.b }[0], [%[src_ptr3]], #1 *)
  Cmp W 2 (Imm 1); (* 773: cmp w2, #1 *)
  B EQ (Fwd 5); (* 773: beq 5f *)
  Ld1Lane 1 0 1 src_ptr0 (Imm 1); (* 773: ld1 { v0.b }[1], [%[src_ptr0]], #1 *)
  Ld1Lane 1 1 1 src_ptr1 (Imm 1); (* 773: ld1 { v1.b }[1], [%[src_ptr1]], #1 *)
  Ld1Lane 1 2 1 src_ptr2 (Imm 1); (* 773: ld1 { v2.b }[1], [%[src_ptr2]], #1 *)
  Ld1Lane 1 3 1 src_ptr3 (Imm 1); (* 773: ld1 { v3.b }[1], [%[src_ptr3]], #1 *)
  Cmp W 2 (Imm 2); (* 774: cmp w2, #2 *)
  B EQ (Fwd 5); (* 774: beq 5f *)
  Ld1Lane 1 0 2 src_ptr0 (Imm 1); (* 774: ld1 { v0.b }[2], [%[src_ptr0]], #1 *)
  Ld1Lane 1 1 2 src_ptr1 (Imm 1); (* 774: ld1 { v1.b }[2], [%[src_ptr1]], #1 *)
  Ld1Lane 1 2 2 src_ptr2 (Imm 1); (* 774: ld1 { v2.b }[2], [%[src_ptr2]], #1 *)
  Ld1Lane 1 3 2 src_ptr3 (Imm 1); (* 774: ld1 { v3.b }[2], [%[src_ptr3]], #1 *)
  Cmp W 2 (Imm 3); (* 775: cmp w2, #3 *)
  B EQ (Fwd 5); (* 775: beq 5f *)
  Ld1Lane 1 0 3 src_ptr0 (Imm 1); (* 775: ld1 { v0.b }[3], [%[src_ptr0]], #1 *)
  Ld1Lane 1 1 3 src_ptr1 (Imm 1); (* 775: ld1 { v1.b }[3], [%[src_ptr1]], #1 *)
  Ld1Lane 1 2 3 src_ptr2 (Imm 1); (* 775: ld1 { v2.b }[3], [%[src_ptr2]], #1 *)
  Ld1Lane 1 3 3 src_ptr3 (Imm 1); (* 775: ld1 { v3.b }[3], [%[src_ptr3]], #1 *)
  Cmp W 2 (Imm 4); (* 776: cmp w2, #4 *)
  B EQ (Fwd 5); (* 776: beq 5f *)
  Ld1Lane 1 0 4 src_ptr0 (Imm 1); (* 776: ld1 { v0.b }[4], [%[src_ptr0]], #1 *)
  Ld1Lane 1 1 4 src_ptr1 (Imm 1); (* 776: ld1 { v1.b }[4], [%[src_ptr1]], #1 *)
  Ld1Lane 1 2 4 src_ptr2 (Imm 1); (* 776: ld1 { v2.b }[4], [%[src_ptr2]], #1 *)
  Ld1Lane 1 3 4 src_ptr3 (Imm 1); (* 776: ld1 { v3.b }[4], [%[src_ptr3]], #1 *)
  Cmp W 2 (Imm 5); (* 777: cmp w2, #5 *)
  B EQ (Fwd 5); (* 777: beq 5f *)
  Ld1Lane 1 0 5 src_ptr0 (Imm 1); (* 777: ld1 { v0.b }[5], [%[src_ptr0]], #1 *)
  Ld1Lane 1 1 5 src_ptr1 (Imm 1); (* 777: ld1 { v1.b }[5], [%[src_ptr1]], #1 *)
  Ld1Lane 1 2 5 src_ptr2 (Imm 1); (* 777: ld1 { v2.b }[5], [%[src_ptr2]], #1 *)
  Ld1Lane 1 3 5 src_ptr3 (Imm 1); (* 777: ld1 { v3.b }[5], [%[src_ptr3]], #1 *)
  Cmp W 2 (Imm 6); (* 778: cmp w2, #6 *)
  B EQ (Fwd 5); (* 778: beq 5f *)
  Ld1Lane 1 0 6 src_ptr0 (Imm 1); (* 778: ld1 { v0.b }[6], [%[src_ptr0]], #1 *)
  Ld1Lane 1 1 6 src_ptr1 (Imm 1); (* 778: ld1 { v1.b }[6], [%[src_ptr1]], #1 *)
  Ld1Lane 1 2 6 src_ptr2 (Imm 1); (* 778: ld1 { v2.b }[6], [%[src_ptr2]], #1 *)
  Ld1Lane 1 3 6 src_ptr3 (Imm 1); (* 778: ld1 { v3.b }[6], [%[src_ptr3]], #1 *)
  Cmp W 2 (Imm 7); (* 779: cmp w2, #7 *)
  B EQ (Fwd 5); (* 779: beq 5f *)
  Ld1Lane 1 0 7 src_ptr0 (Imm 1); (* 779: ld1 { v0.b }[7], [%[src_ptr0]], #1 *)
  Ld1Lane 1 1 7 src_ptr1 (Imm 1); (* 779: ld1 { v1.b }[7], [%[src_ptr1]], #1 *)
  Ld1Lane 1 2 7 src_ptr2 (Imm 1); (* 779: ld1 { v2.b }[7], [%[src_ptr2]], #1 *)
  Ld1Lane 1 3 7 src_ptr3 (Imm 1); (* 779: ld1 { v3.b }[7], [%[src_ptr3]], #1 *)
  Cmp W 2 (Imm 8); (* 780: cmp w2, #8 *)
  B EQ (Fwd 5); (* 780: beq 5f *)
  Ld1Lane 1 0 8 src_ptr0 (Imm 1); (* 780: ld1 { v0.b }[8], [%[src_ptr0]], #1 *)
  Ld1Lane 1 1 8 src_ptr1 (Imm 1); (* 780: ld1 { v1.b }[8], [%[src_ptr1]], #1 *)
  Ld1Lane 1 2 8 src_ptr2 (Imm 1); (* 780: ld1 { v2.b }[8], [%[src_ptr2]], #1 *)
  Ld1Lane 1 3 8 src_ptr3 (Imm 1); (* 780: ld1 { v3.b }[8], [%[src_ptr3]], #1 *)
  Cmp W 2 (Imm 9); (* 781: cmp w2, #9 *)
  B EQ (Fwd 5); (* 781: beq 5f *)
  Ld1Lane 1 0 9 src_ptr0 (Imm 1); (* 781: ld1 { v0.b }[9], [%[src_ptr0]], #1 *)
  Ld1Lane 1 1 9 src_ptr1 (Imm 1); (* 781: ld1 { v1.b }[9], [%[src_ptr1]], #1 *)
  Ld1Lane 1 2 9 src_ptr2 (Imm 1); (* 781: ld1 { v2.b }[9], [%[src_ptr2]], #1 *)
  Ld1Lane 1 3 9 src_ptr3 (Imm 1); (* 781: ld1 { v3.b }[9], [%[src_ptr3]], #1 *)
  Cmp W 2 (Imm 10); (* 782: cmp w2, #10 *)
  B EQ (Fwd 5); (* 782: beq 5f *)
  Ld1Lane 1 0 10 src_ptr0 (Imm 1); (* 782: ld1 { v0.b }[10], [%[src_ptr0]], #1 *)
  Ld1Lane 1 1 10 src_ptr1 (Imm 1); (* 782: ld1 { v1.b }[10], [%[src_ptr1]], #1 *)
  Ld1Lane 1 2 10 src_ptr2 (Imm 1); (* 782: ld1 { v2.b }[10], [%[src_ptr2]], #1 *)
  Ld1Lane 1 3 10 src_ptr3 (Imm 1); (* 782: ld1 { v3.b }[10], [%[src_ptr3]], #1 *)
  Cmp W 2 (Imm 11); (* 783: cmp w2, #11 *)
  B EQ (Fwd 5); (* 783: beq 5f *)
  Ld1Lane 1 0 11 src_ptr0 (Imm 1); (* 783: ld1 { v0.b }[11], [%[src_ptr0]], #1 *)
  Ld1Lane 1 1 11 src_ptr1 (Imm 1); (* 783: ld1 { v1.b }[11], [%[src_ptr1]], #1 *)
  Ld1Lane 1 2 11 src_ptr2 (Imm 1); (* 783: ld1 { v2.b }[11], [%[src_ptr2]], #1 *)
  Ld1Lane 1 3 11 src_ptr3 (Imm 1); (* 783: ld1 { v3.b }[11], [%[src_ptr3]], #1 *)
  Cmp W 2 (Imm 12); (* 784: cmp w2, #12 *)
  B EQ (Fwd 5); (* 784: beq 5f *)
  Ld1Lane 1 0 12 src_ptr0 (Imm 1); (* 784: ld1 { v0.b }[12], [%[src_ptr0]], #1 *)
  Ld1Lane 1 1 12 src_ptr1 (Imm 1); (* 784: ld1 { v1.b }[12], [%[src_ptr1]], #1 *)
  Ld1Lane 1 2 12 src_ptr2 (Imm 1); (* 784: ld1 { v2.b }[12], [%[src_ptr2]], #1 *)
  Ld1Lane 1 3 12 src_ptr3 (Imm 1); (* 784: ld1 { v3.b }[12], [%[src_ptr3]], #1 *)
  Cmp W 2 (Imm 13); (* 785: cmp w2, #13 *)
  B EQ (Fwd 5); (* 785: beq 5f *)
  Ld1Lane 1 0 13 src_ptr0 (Imm 1); (* 785: ld1 { v0.b }[13], [%[src_ptr0]], #1 *)
  Ld1Lane 1 1 13 src_ptr1 (Imm 1); (* 785: ld1 { v1.b }[13], [%[src_ptr1]], #1 *)
  Ld1Lane 1 2 13 src_ptr2 (Imm 1); (* 785: ld1 { v2.b }[13], [%[src_ptr2]], #1 *)
  Ld1Lane 1 3 13 src_ptr3 (Imm 1); (* 785: ld1 { v3.b }[13], [%[src_ptr3]], #1 *)
  Cmp W 2 (Imm 14); (* 786: cmp w2, #14 *)
  B EQ (Fwd 5); (* 786: beq 5f *)
  Ld1Lane 1 0 14 src_ptr0 (Imm 1); (* 786: ld1 { v0.b }[14], [%[src_ptr0]], #1 *)
  Ld1Lane 1 1 14 src_ptr1 (Imm 1); (* 786: ld1 { v1.b }[14], [%[src_ptr1]], #1 *)
  Ld1Lane 1 2 14 src_ptr2 (Imm 1); (* 786: ld1 { v2.b }[14], [%[src_ptr2]], #1 *)
  Ld1Lane 1 3 14 src_ptr3 (Imm 1); (* 786: ld1 { v3.b }[14], [%[src_ptr3]], #1 *)
  Label 5; (* 789: 5: *)
  V2 Eor 4 0 26; (* 792: eor v4.16b, v0.16b, v26.16b *)
  V2 Eor 5 1 26; (* 793: eor v5.16b, v1.16b, v26.16b *)
  V2 Eor 6 2 26; (* 794: eor v6.16b, v2.16b, v26.16b *)
  V2 Eor 7 3 26; (* 795: eor v7.16b, v3.16b, v26.16b *)
  Saddlp 1 16 4; (* 797: saddlp v16.8h, v4.16b *)
  Saddlp 1 17 5; (* 798: saddlp v17.8h, v5.16b *)
  Saddlp 1 18 6; (* 799: saddlp v18.8h, v6.16b *)
  Saddlp 1 19 7; (* 800: saddlp v19.8h, v7.16b *)
  Sadalp 2 28 16; (* 801: sadalp v28.4s, v16.8h *)
  Sadalp 2 29 17; (* 802: sadalp v29.4s, v17.8h *)
  Sadalp 2 30 18; (* 803: sadalp v30.4s, v18.8h *)
  Sadalp 2 31 19; (* 804: sadalp v31.4s, v19.8h *)
  StrQ 4 packed_ptr (Imm 0); (* 806: str q4, [%[packed_ptr], #0] *)
  StrQ 5 packed_ptr (Imm 16); (* 807: str q5, [%[packed_ptr], #16] *)
  StrQ 6 packed_ptr (Imm 32); (* 808: str q6, [%[packed_ptr], #32] *)
  StrQ 7 packed_ptr (Imm 48); (* 809: str q7, [%[packed_ptr], #48] *)
  Alu AAdd false X packed_ptr packed_ptr (Imm 64); (* 810: add %[packed_ptr], %[packed_ptr], #64 *)
  Label 4; (* 812: 4: *)
  V2 (Addp 4) 28 28 29; (* 815: addp v28.4s, v28.4s, v29.4s *)
  V2 (Addp 4) 30 30 31; (* 816: addp v30.4s, v30.4s, v31.4s *)
  V2 (Addp 4) 28 28 30; (* 817: addp v28.4s, v28.4s, v30.4s *)
  Cmp X sums_ptr (Imm 0); (* 820: cmp %[sums_ptr], #0 *)
  B EQ (Fwd 6); (* 821: beq 6f *)
  St1 16 28 sums_ptr (Imm 16); (* 822: st1 {v28.4s}, [%[sums_ptr]], #16 *)
  Label 6 (* 823: 6: *)
].

(** pack_arm.cc:1097-1568, Pack8bitColMajorForNeonDotprod. *)
Definition pack8_dotprod : list instr := [
  Dup 1 16 26 input_xor; (* 1097: dup v26.16b, %w[input_xor] *)
  Mov W 1 (Imm 1); (* 1100: mov w1, #1 *)
  Dup 1 16 27 1; (* 1101: dup v27.16b, w1 *)
  Mov W 1 (Imm 0); (* 1103: mov w1, #0 *)
  Movi 28 0; (* 1105: movi v28.4s, #0 *)
  Movi 29 0; (* 1106: movi v29.4s, #0 *)
  Movi 30 0; (* 1107: movi v30.4s, #0 *)
  Movi 31 0; (* 1108: movi v31.4s, #0 *)
  Alu AAnd true W 2 rows (Imm (-64)); (* 1116: ands w2, %w[rows], #-64 *)
  B EQ (Fwd 9); (* 1119: beq 9f *)
  Alu AAdd false W 1 1 (Imm 64); (* 1121: add w1, w1, #64 *)
  Ld1 16 0 src_ptr0 (Reg src_inc0); (* 1122: ld1 {v0.16b}, [%[src_ptr0]], %[src_inc0] *)
  Ld1 16 1 src_ptr1 (Reg src_inc1); (* 1123: ld1 {v1.16b}, [%[src_ptr1]], %[src_inc1] *)
  Ld1 16 2 src_ptr2 (Reg src_inc2); (* 1124: ld1 {v2.16b}, [%[src_ptr2]], %[src_inc2] *)
  Ld1 16 3 src_ptr3 (Reg src_inc3); (* 1125: ld1 {v3.16b}, [%[src_ptr3]], %[src_inc3] *)
  Ld1 16 4 src_ptr0 (Reg src_inc0); (* 1126: ld1 {v4.16b}, [%[src_ptr0]], %[src_inc0] *)
  Ld1 16 5 src_ptr1 (Reg src_inc1); (* 1127: ld1 {v5.16b}, [%[src_ptr1]], %[src_inc1] *)
  Ld1 16 6 src_ptr2 (Reg src_inc2); (* 1128: ld1 {v6.16b}, [%[src_ptr2]], %[src_inc2] *)
  Ld1 16 7 src_ptr3 (Reg src_inc3); (* 1129: ld1 {v7.16b}, [%[src_ptr3]], %[src_inc3] *)
  Ld1 16 8 src_ptr0 (Reg src_inc0); (* 1130: ld1 {v8.16b}, [%[src_ptr0]], %[src_inc0] *)
  Ld1 16 9 src_ptr1 (Reg src_inc1); (* 1131: ld1 {v9.16b}, [%[src_ptr1]], %[src_inc1] *)
  Ld1 16 10 src_ptr2 (Reg src_inc2); (* 1132: ld1 {v10.16b}, [%[src_ptr2]], %[src_inc2] *)
  Ld1 16 11 src_ptr3 (Reg src_inc3); (* 1133: ld1 {v11.16b}, [%[src_ptr3]], %[src_inc3] *)
  Ld1 16 12 src_ptr0 (Reg src_inc0); (* 1134: ld1 {v12.16b}, [%[src_ptr0]], %[src_inc0] *)
  Ld1 16 13 src_ptr1 (Reg src_inc1); (* 1135: ld1 {v13.16b}, [%[src_ptr1]], %[src_inc1] *)
  Cmp W 1 (Reg 2); (* 1137: cmp w1, w2 *)
  Ld1 16 14 src_ptr2 (Reg src_inc2); (* 1138: ld1 {v14.16b}, [%[src_ptr2]], %[src_inc2] *)
  Ld1 16 15 src_ptr3 (Reg src_inc3); (* 1139: ld1 {v15.16b}, [%[src_ptr3]], %[src_inc3] *)
  B EQ (Fwd 8); (* 1141: beq 8f *)
  Label 7; (* 1144: 7: *)
  V2 Eor 0 0 26; (* 1146: eor v0.16b, v0.16b, v26.16b *)
  V2 Eor 1 1 26; (* 1147: eor v1.16b, v1.16b, v26.16b *)
  V2 Eor 2 2 26; (* 1148: eor v2.16b, v2.16b, v26.16b *)
  V2 Eor 3 3 26; (* 1149: eor v3.16b, v3.16b, v26.16b *)
  V2 (Trn1 4) 16 0 1; (* 1151: trn1 v16.4s, v0.4s, v1.4s *)
  V2 (Trn2 4) 17 0 1; (* 1152: trn2 v17.4s, v0.4s, v1.4s *)
  V2 (Trn1 4) 18 2 3; (* 1153: trn1 v18.4s, v2.4s, v3.4s *)
  V2 (Trn2 4) 19 2 3; (* 1154: trn2 v19.4s, v2.4s, v3.4s *)
  Ld1 16 0 src_ptr0 (Reg src_inc0); (* 1156: ld1 {v0.16b}, [%[src_ptr0]], %[src_inc0] *)
  Ld1 16 1 src_ptr1 (Reg src_inc1); (* 1157: ld1 {v1.16b}, [%[src_ptr1]], %[src_inc1] *)
  Ld1 16 2 src_ptr2 (Reg src_inc2); (* 1158: ld1 {v2.16b}, [%[src_ptr2]], %[src_inc2] *)
  Ld1 16 3 src_ptr3 (Reg src_inc3); (* 1159: ld1 {v3.16b}, [%[src_ptr3]], %[src_inc3] *)
  Alu AAdd false W 1 1 (Imm 16); (* 1160: add w1, w1, #16 *)
  V2 (Trn1 8) 20 16 18; (* 1162: trn1 v20.2d, v16.2d, v18.2d *)
  V2 (Trn2 8) 22 16 18; (* 1163: trn2 v22.2d, v16.2d, v18.2d *)
  V2 (Trn1 8) 21 17 19; (* 1164: trn1 v21.2d, v17.2d, v19.2d *)
  V2 (Trn2 8) 23 17 19; (* 1165: trn2 v23.2d, v17.2d, v19.2d *)
  Inst 0x4e9b969c; (* 1167: .inst 0x4e9b969c  // sdot v28.4s, v20.16b, v27.16b *)
  Inst 0x4e9b96dd; (* 1168: .inst 0x4e9b96dd  // sdot v29.4s, v22.16b, v27.16b *)
  Inst 0x4e9b96be; (* 1169: .inst 0x4e9b96be  // sdot v30.4s, v21.16b, v27.16b *)
  Inst 0x4e9b96ff; (* 1170: .inst 0x4e9b96ff  // sdot v31.4s, v23.16b, v27.16b *)
  StrQ 20 packed_ptr (Imm 0); (* 1172: str q20, [%[packed_ptr], #0] *)
  StrQ 21 packed_ptr (Imm 32); (* 1173: str q21, [%[packed_ptr], #32] *)
  StrQ 22 packed_ptr (Imm 64); (* 1174: str q22, [%[packed_ptr], #64] *)
  StrQ 23 packed_ptr (Imm 96); (* 1175: str q23, [%[packed_ptr], #96] *)
  Alu AAdd false X packed_ptr packed_ptr (Imm 128); (* 1176: add %[packed_ptr], %[packed_ptr], #128 *)
  V2 Eor 4 4 26; (* 1179: eor v4.16b, v4.16b, v26.16b *)
  V2 Eor 5 5 26; (* 1180: eor v5.16b, v5.16b, v26.16b *)
  V2 Eor 6 6 26; (* 1181: eor v6.16b, v6.16b, v26.16b *)
  V2 Eor 7 7 26; (* 1182: eor v7.16b, v7.16b, v26.16b *)
  V2 (Trn1 4) 16 4 5; (* 1184: trn1 v16.4s, v4.4s, v5.4s *)
  V2 (Trn2 4) 17 4 5; (* 1185: trn2 v17.4s, v4.4s, v5.4s *)
  V2 (Trn1 4) 18 6 7; (* 1186: trn1 v18.4s, v6.4s, v7.4s *)
  V2 (Trn2 4) 19 6 7; (* 1187: trn2 v19.4s, v6.4s, v7.4s *)
  Ld1 16 4 src_ptr0 (Reg src_inc0); (* 1189: ld1 {v4.16b}, [%[src_ptr0]], %[src_inc0] *)
  Ld1 16 5 src_ptr1 (Reg src_inc1); (* 1190: ld1 {v5.16b}, [%[src_ptr1]], %[src_inc1] *)
  Ld1 16 6 src_ptr2 (Reg src_inc2); (* 1191: ld1 {v6.16b}, [%[src_ptr2]], %[src_inc2] *)
  Ld1 16 7 src_ptr3 (Reg src_inc3); (* 1192: ld1 {v7.16b}, [%[src_ptr3]], %[src_inc3] *)
  Alu AAdd false W 1 1 (Imm 16); (* 1193: add w1, w1, #16 *)
  V2 (Trn1 8) 20 16 18; (* 1195: trn1 v20.2d, v16.2d, v18.2d *)
  V2 (Trn2 8) 22 16 18; (* 1196: trn2 v22.2d, v16.2d, v18.2d *)
  V2 (Trn1 8) 21 17 19; (* 1197: trn1 v21.2d, v17.2d, v19.2d *)
  V2 (Trn2 8) 23 17 19; (* 1198: trn2 v23.2d, v17.2d, v19.2d *)
  Inst 0x4e9b969c; (* 1200: .inst 0x4e9b969c  // sdot v28.4s, v20.16b, v27.16b *)
  Inst 0x4e9b96dd; (* 1201: .inst 0x4e9b96dd  // sdot v29.4s, v22.16b, v27.16b *)
  Inst 0x4e9b96be; (* 1202: .inst 0x4e9b96be  // sdot v30.4s, v21.16b, v27.16b *)
  Inst 0x4e9b96ff; (* 1203: .inst 0x4e9b96ff  // sdot v31.4s, v23.16b, v27.16b *)
  StrQ 20 packed_ptr (Imm 0); (* 1205: str q20, [%[packed_ptr], #0] *)
  StrQ 21 packed_ptr (Imm 32); (* 1206: str q21, [%[packed_ptr], #32] *)
  StrQ 22 packed_ptr (Imm 64); (* 1207: str q22, [%[packed_ptr], #64] *)
  StrQ 23 packed_ptr (Imm 96); (* 1208: str q23, [%[packed_ptr], #96] *)
  Alu AAdd false X packed_ptr packed_ptr (Imm 128); (* 1209: add %[packed_ptr], %[packed_ptr], #128 *)
  V2 Eor 8 8 26; (* 1212: eor v8.16b, v8.16b, v26.16b *)
  V2 Eor 9 9 26; (* 1213: eor v9.16b, v9.16b, v26.16b *)
  V2 Eor 10 10 26; (* 1214: eor v10.16b, v10.16b, v26.16b *)
  V2 Eor 11 11 26; (* 1215: eor v11.16b, v11.16b, v26.16b *)
  V2 (Trn1 4) 16 8 9; (* 1217: trn1 v16.4s, v8.4s, v9.4s *)
  V2 (Trn2 4) 17 8 9; (* 1218: trn2 v17.4s, v8.4s, v9.4s *)
  V2 (Trn1 4) 18 10 11; (* 1219: trn1 v18.4s, v10.4s, v11.4s *)
  V2 (Trn2 4) 19 10 11; (* 1220: trn2 v19.4s, v10.4s, v11.4s *)
  Ld1 16 8 src_ptr0 (Reg src_inc0); (* 1222: ld1 {v8.16b}, [%[src_ptr0]], %[src_inc0] *)
  Ld1 16 9 src_ptr1 (Reg src_inc1); (* 1223: ld1 {v9.16b}, [%[src_ptr1]], %[src_inc1] *)
  Ld1 16 10 src_ptr2 (Reg src_inc2); (* 1224: ld1 {v10.16b}, [%[src_ptr2]], %[src_inc2] *)
  Ld1 16 11 src_ptr3 (Reg src_inc3); (* 1225: ld1 {v11.16b}, [%[src_ptr3]], %[src_inc3] *)
  Alu AAdd false W 1 1 (Imm 16); (* 1226: add w1, w1, #16 *)
  V2 (Trn1 8) 20 16 18; (* 1228: trn1 v20.2d, v16.2d, v18.2d *)
  V2 (Trn2 8) 22 16 18; (* 1229: trn2 v22.2d, v16.2d, v18.2d *)
  V2 (Trn1 8) 21 17 19; (* 1230: trn1 v21.2d, v17.2d, v19.2d *)
  V2 (Trn2 8) 23 17 19; (* 1231: trn2 v23.2d, v17.2d, v19.2d *)
  Inst 0x4e9b969c; (* 1233: .inst 0x4e9b969c  // sdot v28.4s, v20.16b, v27.16b *)
  Inst 0x4e9b96dd; (* 1234: .inst 0x4e9b96dd  // sdot v29.4s, v22.16b, v27.16b *)
  Inst 0x4e9b96be; (* 1235: .inst 0x4e9b96be  // sdot v30.4s, v21.16b, v27.16b *)
  Inst 0x4e9b96ff; (* 1236: .inst 0x4e9b96ff  // sdot v31.4s, v23.16b, v27.16b *)
  StrQ 20 packed_ptr (Imm 0); (* 1238: str q20, [%[packed_ptr], #0] *)
  StrQ 21 packed_ptr (Imm 32); (* 1239: str q21, [%[packed_ptr], #32] *)
  StrQ 22 packed_ptr (Imm 64); (* 1240: str q22, [%[packed_ptr], #64] *)
  StrQ 23 packed_ptr (Imm 96); (* 1241: str q23, [%[packed_ptr], #96] *)
  Alu AAdd false X packed_ptr packed_ptr (Imm 128); (* 1242: add %[packed_ptr], %[packed_ptr], #128 *)
  V2 Eor 12 12 26; (* 1245: eor v12.16b, v12.16b, v26.16b *)
  V2 Eor 13 13 26; (* 1246: eor v13.16b, v13.16b, v26.16b *)
  V2 Eor 14 14 26; (* 1247: eor v14.16b, v14.16b, v26.16b *)
  V2 Eor 15 15 26; (* 1248: eor v15.16b, v15.16b, v26.16b *)
  V2 (Trn1 4) 16 12 13; (* 1250: trn1 v16.4s, v12.4s, v13.4s *)
  V2 (Trn2 4) 17 12 13; (* 1251: trn2 v17.4s, v12.4s, v13.4s *)
  V2 (Trn1 4) 18 14 15; (* 1252: trn1 v18.4s, v14.4s, v15.4s *)
  V2 (Trn2 4) 19 14 15; (* 1253: trn2 v19.4s, v14.4s, v15.4s *)
  Ld1 16 12 src_ptr0 (Reg src_inc0); (* 1255: ld1 {v12.16b}, [%[src_ptr0]], %[src_inc0] *)
  Ld1 16 13 src_ptr1 (Reg src_inc1); (* 1256: ld1 {v13.16b}, [%[src_ptr1]], %[src_inc1] *)
  Ld1 16 14 src_ptr2 (Reg src_inc2); (* 1257: ld1 {v14.16b}, [%[src_ptr2]], %[src_inc2] *)
  Ld1 16 15 src_ptr3 (Reg src_inc3); (* 1258: ld1 {v15.16b}, [%[src_ptr3]], %[src_inc3] *)
  Alu AAdd false W 1 1 (Imm 16); (* 1259: add w1, w1, #16 *)
  V2 (Trn1 8) 20 16 18; (* 1261: trn1 v20.2d, v16.2d, v18.2d *)
  V2 (Trn2 8) 22 16 18; (* 1262: trn2 v22.2d, v16.2d, v18.2d *)
  V2 (Trn1 8) 21 17 19; (* 1263: trn1 v21.2d, v17.2d, v19.2d *)
  V2 (Trn2 8) 23 17 19; (* 1264: trn2 v23.2d, v17.2d, v19.2d *)
  Inst 0x4e9b969c; (* 1266: .inst 0x4e9b969c  // sdot v28.4s, v20.16b, v27.16b *)
  Inst 0x4e9b96dd; (* 1267: .inst 0x4e9b96dd  // sdot v29.4s, v22.16b, v27.16b *)
  Inst 0x4e9b96be; (* 1268: .inst 0x4e9b96be  // sdot v30.4s, v21.16b, v27.16b *)
  Inst 0x4e9b96ff; (* 1269: .inst 0x4e9b96ff  // sdot v31.4s, v23.16b, v27.16b *)
  Cmp W 1 (Reg 2); (* 1271: cmp w1, w2 *)
  StrQ 20 packed_ptr (Imm 0); (* 1272: str q20, [%[packed_ptr], #0] *)
  StrQ 21 packed_ptr (Imm 32); (* 1273: str q21, [%[packed_ptr], #32] *)
  StrQ 22 packed_ptr (Imm 64); (* 1274: str q22, [%[packed_ptr], #64] *)
  StrQ 23 packed_ptr (Imm 96); (* 1275: str q23, [%[packed_ptr], #96] *)
  Alu AAdd false X packed_ptr packed_ptr (Imm 128); (* 1276: add %[packed_ptr], %[packed_ptr], #128 *)
  B NE (Back 7); (* 1279: bne 7b *)
  Label 8; (* 1283: 8: *)
  V2 Eor 0 0 26; (* 1286: eor v0.16b, v0.16b, v26.16b *)
  V2 Eor 1 1 26; (* 1287: eor v1.16b, v1.16b, v26.16b *)
  V2 Eor 2 2 26; (* 1288: eor v2.16b, v2.16b, v26.16b *)
  V2 Eor 3 3 26; (* 1289: eor v3.16b, v3.16b, v26.16b *)
  V2 (Trn1 4) 16 0 1; (* 1291: trn1 v16.4s, v0.4s, v1.4s *)
  V2 (Trn2 4) 17 0 1; (* 1292: trn2 v17.4s, v0.4s, v1.4s *)
  V2 (Trn1 4) 18 2 3; (* 1293: trn1 v18.4s, v2.4s, v3.4s *)
  V2 (Trn2 4) 19 2 3; (* 1294: trn2 v19.4s, v2.4s, v3.4s *)
  V2 (Trn1 8) 20 16 18; (* 1296: trn1 v20.2d, v16.2d, v18.2d *)
  V2 (Trn2 8) 22 16 18; (* 1297: trn2 v22.2d, v16.2d, v18.2d *)
  V2 (Trn1 8) 21 17 19; (* 1298: trn1 v21.2d, v17.2d, v19.2d *)
  V2 (Trn2 8) 23 17 19; (* 1299: trn2 v23.2d, v17.2d, v19.2d *)
  Inst 0x4e9b969c; (* 1301: .inst 0x4e9b969c  // sdot v28.4s, v20.16b, v27.16b *)
  Inst 0x4e9b96dd; (* 1302: .inst 0x4e9b96dd  // sdot v29.4s, v22.16b, v27.16b *)
  Inst 0x4e9b96be; (* 1303: .inst 0x4e9b96be  // sdot v30.4s, v21.16b, v27.16b *)
  Inst 0x4e9b96ff; (* 1304: .inst 0x4e9b96ff  // sdot v31.4s, v23.16b, v27.16b *)
  StrQ 20 packed_ptr (Imm 0); (* 1306: str q20, [%[packed_ptr], #0] *)
  StrQ 21 packed_ptr (Imm 32); (* 1307: str q21, [%[packed_ptr], #32] *)
  StrQ 22 packed_ptr (Imm 64); (* 1308: str q22, [%[packed_ptr], #64] *)
  StrQ 23 packed_ptr (Imm 96); (* 1309: str q23, [%[packed_ptr], #96] *)
  Alu AAdd false X packed_ptr packed_ptr (Imm 128); (* 1310: add %[packed_ptr], %[packed_ptr], #128 *)
  V2 Eor 4 4 26; (* 1313: eor v4.16b, v4.16b, v26.16b *)
  V2 Eor 5 5 26; (* 1314: eor v5.16b, v5.16b, v26.16b *)
  V2 Eor 6 6 26; (* 1315: eor v6.16b, v6.16b, v26.16b *)
  V2 Eor 7 7 26; (* 1316: eor v7.16b, v7.16b, v26.16b *)
  V2 (Trn1 4) 16 4 5; (* 1318: trn1 v16.4s, v4.4s, v5.4s *)
  V2 (Trn2 4) 17 4 5; (* 1319: trn2 v17.4s, v4.4s, v5.4s *)
  V2 (Trn1 4) 18 6 7; (* 1320: trn1 v18.4s, v6.4s, v7.4s *)
  V2 (Trn2 4) 19 6 7; (* 1321: trn2 v19.4s, v6.4s, v7.4s *)
  V2 (Trn1 8) 20 16 18; (* 1323: trn1 v20.2d, v16.2d, v18.2d *)
  V2 (Trn2 8) 22 16 18; (* 1324: trn2 v22.2d, v16.2d, v18.2d *)
  V2 (Trn1 8) 21 17 19; (* 1325: trn1 v21.2d, v17.2d, v19.2d *)
  V2 (Trn2 8) 23 17 19; (* 1326: trn2 v23.2d, v17.2d, v19.2d *)
  Inst 0x4e9b969c; (* 1328: .inst 0x4e9b969c  // sdot v28.4s, v20.16b, v27.16b *)
  Inst 0x4e9b96dd; (* 1329: .inst 0x4e9b96dd  // sdot v29.4s, v22.16b, v27.16b *)
  Inst 0x4e9b96be; (* 1330: .inst 0x4e9b96be  // sdot v30.4s, v21.16b, v27.16b *)
  Inst 0x4e9b96ff; (* 1331: .inst 0x4e9b96ff  // sdot v31.4s, v23.16b, v27.16b *)
  StrQ 20 packed_ptr (Imm 0); (* 1333: str q20, [%[packed_ptr], #0] *)
  StrQ 21 packed_ptr (Imm 32); (* 1334: str q21, [%[packed_ptr], #32] *)
  StrQ 22 packed_ptr (Imm 64); (* 1335: str q22, [%[packed_ptr], #64] *)
  StrQ 23 packed_ptr (Imm 96); (* 1336: str q23, [%[packed_ptr], #96] *)
  Alu AAdd false X packed_ptr packed_ptr (Imm 128); (* 1337: add %[packed_ptr], %[packed_ptr], #128 *)
  V2 Eor 8 8 26; (* 1340: eor v8.16b, v8.16b, v26.16b *)
  V2 Eor 9 9 26; (* 1341: eor v9.16b, v9.16b, v26.16b *)
  V2 Eor 10 10 26; (* 1342: eor v10.16b, v10.16b, v26.16b *)
  V2 Eor 11 11 26; (* 1343: eor v11.16b, v11.16b, v26.16b *)
  V2 (Trn1 4) 16 8 9; (* 1345: trn1 v16.4s, v8.4s, v9.4s *)
  V2 (Trn2 4) 17 8 9; (* 1346: trn2 v17.4s, v8.4s, v9.4s *)
  V2 (Trn1 4) 18 10 11; (* 1347: trn1 v18.4s, v10.4s, v11.4s *)
  V2 (Trn2 4) 19 10 11; (* 1348: trn2 v19.4s, v10.4s, v11.4s *)
  V2 (Trn1 8) 20 16 18; (* 1350: trn1 v20.2d, v16.2d, v18.2d *)
  V2 (Trn2 8) 22 16 18; (* 1351: trn2 v22.2d, v16.2d, v18.2d *)
  V2 (Trn1 8) 21 17 19; (* 1352: trn1 v21.2d, v17.2d, v19.2d *)
  V2 (Trn2 8) 23 17 19; (* 1353: trn2 v23.2d, v17.2d, v19.2d *)
  Inst 0x4e9b969c; (* 1355: .inst 0x4e9b969c  // sdot v28.4s, v20.16b, v27.16b *)
  Inst 0x4e9b96dd; (* 1356: .inst 0x4e9b96dd  // sdot v29.4s, v22.16b, v27.16b *)
  Inst 0x4e9b96be; (* 1357: .inst 0x4e9b96be  // sdot v30.4s, v21.16b, v27.16b *)
  Inst 0x4e9b96ff; (* 1358: .inst 0x4e9b96ff  // sdot v31.4s, v23.16b, v27.16b *)
  StrQ 20 packed_ptr (Imm 0); (* 1360: str q20, [%[packed_ptr], #0] *)
  StrQ 21 packed_ptr (Imm 32); (* 1361: str q21, [%[packed_ptr], #32] *)
  StrQ 22 packed_ptr (Imm 64); (* 1362: str q22, [%[packed_ptr], #64] *)
  StrQ 23 packed_ptr (Imm 96); (* 1363: str q23, [%[packed_ptr], #96] *)
  Alu AAdd false X packed_ptr packed_ptr (Imm 128); (* 1364: add %[packed_ptr], %[packed_ptr], #128 *)
  V2 Eor 12 12 26; (* 1367: eor v12.16b, v12.16b, v26.16b *)
  V2 Eor 13 13 26; (* 1368: eor v13.16b, v13.16b, v26.16b *)
  V2 Eor 14 14 26; (* 1369: eor v14.16b, v14.16b, v26.16b *)
  V2 Eor 15 15 26; (* 1370: eor v15.16b, v15.16b, v26.16b *)
  V2 (Trn1 4) 16 12 13; (* 1372: trn1 v16.4s, v12.4s, v13.4s *)
  V2 (Trn2 4) 17 12 13; (* 1373: trn2 v17.4s, v12.4s, v13.4s *)
  V2 (Trn1 4) 18 14 15; (* 1374: trn1 v18.4s, v14.4s, v15.4s *)
  V2 (Trn2 4) 19 14 15; (* 1375: trn2 v19.4s, v14.4s, v15.4s *)
  V2 (Trn1 8) 20 16 18; (* 1377: trn1 v20.2d, v16.2d, v18.2d *)
  V2 (Trn2 8) 22 16 18; (* 1378: trn2 v22.2d, v16.2d, v18.2d *)
  V2 (Trn1 8) 21 17 19; (* 1379: trn1 v21.2d, v17.2d, v19.2d *)
  V2 (Trn2 8) 23 17 19; (* 1380: trn2 v23.2d, v17.2d, v19.2d *)
  Inst 0x4e9b969c; (* 1382: .inst 0x4e9b969c  // sdot v28.4s, v20.16b, v27.16b *)
  Inst 0x4e9b96dd; (* 1383: .inst 0x4e9b96dd  // sdot v29.4s, v22.16b, v27.16b *)
  Inst 0x4e9b96be; (* 1384: .inst 0x4e9b96be  // sdot v30.4s, v21.16b, v27.16b *)
  Inst 0x4e9b96ff; (* 1385: .inst 0x4e9b96ff  // sdot v31.4s, v23.16b, v27.16b *)
  StrQ 20 packed_ptr (Imm 0); (* 1387: str q20, [%[packed_ptr], #0] *)
  StrQ 21 packed_ptr (Imm 32); (* 1388: str q21, [%[packed_ptr], #32] *)
  StrQ 22 packed_ptr (Imm 64); (* 1389: str q22, [%[packed_ptr], #64] *)
  StrQ 23 packed_ptr (Imm 96); (* 1390: str q23, [%[packed_ptr], #96] *)
  Alu AAdd false X packed_ptr packed_ptr (Imm 128); (* 1391: add %[packed_ptr], %[packed_ptr], #128 *)
  Label 9; (* 1393: 9: *)
  Alu AAnd false W 2 rows (Imm (-16)); (* 1400: and w2, %w[rows], #-16 *)
  Cmp W 1 (Reg 2); (* 1403: cmp w1, w2 *)
  B EQ (Fwd 3); (* 1404: beq 3f *)
  Alu AAdd false W 1 1 (Imm 16); (* 1407: add w1, w1, #16 *)
  Ld1 16 0 src_ptr0 (Reg src_inc0); (* 1408: ld1 {v0.16b}, [%[src_ptr0]], %[src_inc0] *)
  Ld1 16 1 src_ptr1 (Reg src_inc1); (* 1409: ld1 {v1.16b}, [%[src_ptr1]], %[src_inc1] *)
  Cmp W 1 (Reg 2); (* 1411: cmp w1, w2 *)
  Ld1 16 2 src_ptr2 (Reg src_inc2); (* 1412: ld1 {v2.16b}, [%[src_ptr2]], %[src_inc2] *)
  Ld1 16 3 src_ptr3 (Reg src_inc3); (* 1413: ld1 {v3.16b}, [%[src_ptr3]], %[src_inc3] *)
  B EQ (Fwd 2); (* 1416: beq 2f *)
  Label 1; (* 1418: 1: *)
  V2 Eor 0 0 26; (* 1420: eor v0.16b, v0.16b, v26.16b *)
  V2 Eor 1 1 26; (* 1421: eor v1.16b, v1.16b, v26.16b *)
  V2 Eor 2 2 26; (* 1422: eor v2.16b, v2.16b, v26.16b *)
  V2 Eor 3 3 26; (* 1423: eor v3.16b, v3.16b, v26.16b *)
  V2 (Trn1 4) 16 0 1; (* 1425: trn1 v16.4s, v0.4s, v1.4s *)
  V2 (Trn2 4) 17 0 1; (* 1426: trn2 v17.4s, v0.4s, v1.4s *)
  V2 (Trn1 4) 18 2 3; (* 1427: trn1 v18.4s, v2.4s, v3.4s *)
  V2 (Trn2 4) 19 2 3; (* 1428: trn2 v19.4s, v2.4s, v3.4s *)
  Ld1 16 0 src_ptr0 (Reg src_inc0); (* 1430: ld1 {v0.16b}, [%[src_ptr0]], %[src_inc0] *)
  Ld1 16 1 src_ptr1 (Reg src_inc1); (* 1431: ld1 {v1.16b}, [%[src_ptr1]], %[src_inc1] *)
  Ld1 16 2 src_ptr2 (Reg src_inc2); (* 1432: ld1 {v2.16b}, [%[src_ptr2]], %[src_inc2] *)
  Ld1 16 3 src_ptr3 (Reg src_inc3); (* 1433: ld1 {v3.16b}, [%[src_ptr3]], %[src_inc3] *)
  Alu AAdd false W 1 1 (Imm 16); (* 1434: add w1, w1, #16 *)
  V2 (Trn1 8) 20 16 18; (* 1436: trn1 v20.2d, v16.2d, v18.2d *)
  V2 (Trn2 8) 22 16 18; (* 1437: trn2 v22.2d, v16.2d, v18.2d *)
  V2 (Trn1 8) 21 17 19; (* 1438: trn1 v21.2d, v17.2d, v19.2d *)
  V2 (Trn2 8) 23 17 19; (* 1439: trn2 v23.2d, v17.2d, v19.2d *)
  Inst 0x4e9b969c; (* 1441: .inst 0x4e9b969c  // sdot v28.4s, v20.16b, v27.16b *)
  Inst 0x4e9b96dd; (* 1442: .inst 0x4e9b96dd  // sdot v29.4s, v22.16b, v27.16b *)
  Inst 0x4e9b96be; (* 1443: .inst 0x4e9b96be  // sdot v30.4s, v21.16b, v27.16b *)
  Inst 0x4e9b96ff; (* 1444: .inst 0x4e9b96ff  // sdot v31.4s, v23.16b, v27.16b *)
  StrQ 20 packed_ptr (Imm 0); (* 1446: str q20, [%[packed_ptr], #0] *)
  StrQ 21 packed_ptr (Imm 32); (* 1447: str q21, [%[packed_ptr], #32] *)
  Cmp W 1 (Reg 2); (* 1448: cmp w1, w2 *)
  StrQ 22 packed_ptr (Imm 64); (* 1449: str q22, [%[packed_ptr], #64] *)
  StrQ 23 packed_ptr (Imm 96); (* 1450: str q23, [%[packed_ptr], #96] *)
  Alu AAdd false X packed_ptr packed_ptr (Imm 128); (* 1451: add %[packed_ptr], %[packed_ptr], #128 *)
  B NE (Back 1); (* 1453: bne 1b *)
  Label 2; (* 1456: 2: *)
  V2 Eor 0 0 26; (* 1459: eor v0.16b, v0.16b, v26.16b *)
  V2 Eor 1 1 26; (* 1460: eor v1.16b, v1.16b, v26.16b *)
  V2 Eor 2 2 26; (* 1461: eor v2.16b, v2.16b, v26.16b *)
  V2 Eor 3 3 26; (* 1462: eor v3.16b, v3.16b, v26.16b *)
  V2 (Trn1 4) 16 0 1; (* 1464: trn1 v16.4s, v0.4s, v1.4s *)
  V2 (Trn2 4) 17 0 1; (* 1465: trn2 v17.4s, v0.4s, v1.4s *)
  V2 (Trn1 4) 18 2 3; (* 1466: trn1 v18.4s, v2.4s, v3.4s *)
  V2 (Trn2 4) 19 2 3; (* 1467: trn2 v19.4s, v2.4s, v3.4s *)
  V2 (Trn1 8) 20 16 18; (* 1469: trn1 v20.2d, v16.2d, v18.2d *)
  V2 (Trn2 8) 22 16 18; (* 1470: trn2 v22.2d, v16.2d, v18.2d *)
  V2 (Trn1 8) 21 17 19; (* 1471: trn1 v21.2d, v17.2d, v19.2d *)
  V2 (Trn2 8) 23 17 19; (* 1472: trn2 v23.2d, v17.2d, v19.2d *)
  Inst 0x4e9b969c; (* 1474: .inst 0x4e9b969c  // sdot v28.4s, v20.16b, v27.16b *)
  Inst 0x4e9b96dd; (* 1475: .inst 0x4e9b96dd  // sdot v29.4s, v22.16b, v27.16b *)
  Inst 0x4e9b96be; (* 1476: .inst 0x4e9b96be  // sdot v30.4s, v21.16b, v27.16b *)
  Inst 0x4e9b96ff; (* 1477: .inst 0x4e9b96ff  // sdot v31.4s, v23.16b, v27.16b *)
  StrQ 20 packed_ptr (Imm 0); (* 1479: str q20, [%[packed_ptr], #0] *)
  StrQ 21 packed_ptr (Imm 32); (* 1480: str q21, [%[packed_ptr], #32] *)
  StrQ 22 packed_ptr (Imm 64); (* 1481: str q22, [%[packed_ptr], #64] *)
  StrQ 23 packed_ptr (Imm 96); (* 1482: str q23, [%[packed_ptr], #96] *)
  Alu AAdd false X packed_ptr packed_ptr (Imm 128); (* 1483: add %[packed_ptr], %[packed_ptr], #128 *)
  Label 3; (* 1487: 3: *)
  Alu AAnd true W 2 rows (Imm 15); (* 1489: ands w2, %w[rows], #15 *)
  B EQ (Fwd 4); (* 1491: beq 4f *)
  Dup 1 16 0 src_zero_point; (* 1494: dup v0.16b, %w[src_zero_point] *)
  Dup 1 16 1 src_zero_point; (* 1495: dup v1.16b, %w[src_zero_point] *)
  Dup 1 16 2 src_zero_point; (* 1496: dup v2.16b, %w[src_zero_point] *)
  Dup 1 16 3 src_zero_point; (* 1497: dup v3.16b, %w[src_zero_point] *)
  Cmp W 2 (Imm 0); (* 1506: cmp w2, #0 *)
  B EQ (Fwd 5); (* 1506: beq 5f *)
  Ld1Lane 1 0 0 src_ptr0 (Imm 1); (* 1506: ld1 { v0.b }[0], [%[src_ptr0]], #1 *)
  Ld1Lane 1 1 0 src_ptr1 (Imm 1); (* 1506: ld1 { v1.b }[0], [%[src_ptr1]], #1 *)
  Ld1Lane 1 2 0 src_ptr2 (Imm 1); (* 1506: ld1 { v2.b }[0], [%[src_ptr2]], #1 *)
  Ld1Lane 1 3 0 src_ptr3 (Imm 1); (* 1506: ld1 { v3.b }[0], [%[src_ptr3]], #1 *)
  Cmp W 2 (Imm 1); (* 1507: cmp w2, #1 *)
  B EQ (Fwd 5); (* 1507: beq 5f *)
  Ld1Lane 1 0 1 src_ptr0 (Imm 1); (* 1507: ld1 { v0.b }[1], [%[src_ptr0]], #1 *)
  Ld1Lane 1 1 1 src_ptr1 (Imm 1); (* 1507: ld1 { v1.b }[1], [%[src_ptr1]], #1 *)
  Ld1Lane 1 2 1 src_ptr2 (Imm 1); (* 1507: ld1 { v2.b }[1], [%[src_ptr2]], #1 *)
  Ld1Lane 1 3 1 src_ptr3 (Imm 1); (* 1507: ld1 { v3.b }[1], [%[src_ptr3]], #1 *)
  Cmp W 2 (Imm 2); (* 1508: cmp w2, #2 *)
  B EQ (Fwd 5); (* 1508: beq 5f *)
  Ld1Lane 1 0 2 src_ptr0 (Imm 1); (* 1508: ld1 { v0.b }[2], [%[src_ptr0]], #1 *)
  Ld1Lane 1 1 2 src_ptr1 (Imm 1); (* 1508: ld1 { v1.b }[2], [%[src_ptr1]], #1 *)
  Ld1Lane 1 2 2 src_ptr2 (Imm 1); (* 1508: ld1 { v2.b }[2], [%[src_ptr2]], #1 *)
  Ld1Lane 1 3 2 src_ptr3 (Imm 1); (* 1508: ld1 { v3.b }[2], [%[src_ptr3]], #1 *)
  Cmp W 2 (Imm 3); (* 1509: cmp w2, #3 *)
  B EQ (Fwd 5); (* 1509: beq 5f *)
  Ld1Lane 1 0 3 src_ptr0 (Imm 1); (* 1509: ld1 { v0.b }[3], [%[src_ptr0]], #1 *)
  Ld1Lane 1 1 3 src_ptr1 (Imm 1); (* 1509: ld1 { v1.b }[3], [%[src_ptr1]], #1 *)
  Ld1Lane 1 2 3 src_ptr2 (Imm 1); (* 1509: ld1 { v2.b }[3], [%[src_ptr2]], #1 *)
  Ld1Lane 1 3 3 src_ptr3 (Imm 1); (* 1509: ld1 { v3.b }[3], [%[src_ptr3]], #1 *)
  Cmp W 2 (Imm 4); (* 1510: cmp w2, #4 *)
  B EQ (Fwd 5); (* 1510: beq 5f *)
  Ld1Lane 1 0 4 src_ptr0 (Imm 1); (* 1510: ld1 { v0.b }[4], [%[src_ptr0]], #1 *)
  Ld1Lane 1 1 4 src_ptr1 (Imm 1); (* 1510: ld1 { v1.b }[4], [%[src_ptr1]], #1 *)
  Ld1Lane 1 2 4 src_ptr2 (Imm 1); (* 1510: ld1 { v2.b }[4], [%[src_ptr2]], #1 *)
  Ld1Lane 1 3 4 src_ptr3 (Imm 1); (* 1510: ld1 { v3.b }[4], [%[src_ptr3]], #1 *)
  Cmp W 2 (Imm 5); (* 1511: cmp w2, #5 *)
  B EQ (Fwd 5); (* 1511: beq 5f *)
  Ld1Lane 1 0 5 src_ptr0 (Imm 1); (* 1511: ld1 { v0.b }[5], [%[src_ptr0]], #1 *)
  Ld1Lane 1 1 5 src_ptr1 (Imm 1); (* 1511: ld1 { v1.b }[5], [%[src_ptr1]], #1 *)
  Ld1Lane 1 2 5 src_ptr2 (Imm 1); (* 1511: ld1 { v2.b }[5], [%[src_ptr2]], #1 *)
  Ld1Lane 1 3 5 src_ptr3 (Imm 1); (* 1511: ld1 { v3.b }[5], [%[src_ptr3]], #1 *)
  Cmp W 2 (Imm 6); (* 1512: cmp w2, #6 *)
  B EQ (Fwd 5); (* 1512: beq 5f *)
  Ld1Lane 1 0 6 src_ptr0 (Imm 1); (* 1512: ld1 { v0.b }[6], [%[src_ptr0]], #1 *)
  Ld1Lane 1 1 6 src_ptr1 (Imm 1); (* 1512: ld1 { v1.b }[6], [%[src_ptr1]], #1 *)
  Ld1Lane 1 2 6 src_ptr2 (Imm 1); (* 1512: ld1 { v2.b }[6], [%[src_ptr2]], #1 *)
  Ld1Lane 1 3 6 src_ptr3 (Imm 1); (* 1512: ld1 { v3.b }[6], [%[src_ptr3]], #1 *)
  Cmp W 2 (Imm 7); (* 1513: cmp w2, #7 *)
  B EQ (Fwd 5); (* 1513: beq 5f *)
  Ld1Lane 1 0 7 src_ptr0 (Imm 1); (* 1513: ld1 { v0.b }[7], [%[src_ptr0]], #1 *)
  Ld1Lane 1 1 7 src_ptr1 (Imm 1); (* 1513: ld1 { v1.b }[7], [%[src_ptr1]], #1 *)
  Ld1Lane 1 2 7 src_ptr2 (Imm 1); (* 1513: ld1 { v2.b }[7], [%[src_ptr2]], #1 *)
  Ld1Lane 1 3 7 src_ptr3 (Imm 1); (* 1513: ld1 { v3.b }[7], [%[src_ptr3]], #1 *)
  Cmp W 2 (Imm 8); (* 1514: cmp w2, #8 *)
  B EQ (Fwd 5); (* 1514: beq 5f *)
  Ld1Lane 1 0 8 src_ptr0 (Imm 1); (* 1514: ld1 { v0.b }[8], [%[src_ptr0]], #1 *)
  Ld1Lane 1 1 8 src_ptr1 (Imm 1); (* 1514: ld1 { v1.b }[8], [%[src_ptr1]], #1 *)
  Ld1Lane 1 2 8 src_ptr2 (Imm 1); (* 1514: ld1 { v2.b }[8], [%[src_ptr2]], #1 *)
  Ld1Lane 1 3 8 src_ptr3 (Imm 1); (* 1514: ld1 { v3.b }[8], [%[src_ptr3]], #1 *)
  Cmp W 2 (Imm 9); (* 1515: cmp w2, #9 *)
  B EQ (Fwd 5); (* 1515: beq 5f *)
  Ld1Lane 1 0 9 src_ptr0 (Imm 1); (* 1515: ld1 { v0.b }[9], [%[src_ptr0]], #1 *)
  Ld1Lane 1 1 9 src_ptr1 (Imm 1); (* 1515: ld1 { v1.b }[9], [%[src_ptr1]], #1 *)
  Ld1Lane 1 2 9 src_ptr2 (Imm 1); (* 1515: ld1 { v2.b }[9], [%[src_ptr2]], #1 *)
  Ld1Lane 1 3 9 src_ptr3 (Imm 1); (* 1515: ld1 { v3.b }[9], [%[src_ptr3]], #1 *)
  Cmp W 2 (Imm 10); (* 1516: cmp w2, #10 *)
  B EQ (Fwd 5); (* 1516: beq 5f *)
  Ld1Lane 1 0 10 src_ptr0 (Imm 1); (* 1516: ld1 { v0.b }[10], [%[src_ptr0]], #1 *)
  Ld1Lane 1 1 10 src_ptr1 (Imm 1); (* 1516: ld1 { v1.b }[10], [%[src_ptr1]], #1 *)
  Ld1Lane 1 2 10 src_ptr2 (Imm 1); (* 1516: ld1 { v2.b }[10], [%[src_ptr2]], #1 *)
  Ld1Lane 1 3 10 src_ptr3 (Imm 1); (* 1516: ld1 { v3.b }[10], [%[src_ptr3]], #1 *)
  Cmp W 2 (Imm 11); (* 1517: cmp w2, #11 *)
  B EQ (Fwd 5); (* 1517: beq 5f *)
  Ld1Lane 1 0 11 src_ptr0 (Imm 1); (* 1517: ld1 { v0.b }[11], [%[src_ptr0]], #1 *)
  Ld1Lane 1 1 11 src_ptr1 (Imm 1); (* 1517: ld1 { v1.b }[11], [%[src_ptr1]], #1 *)
  Ld1Lane 1 2 11 src_ptr2 (Imm 1); (* 1517: ld1 { v2.b }[11], [%[src_ptr2]], #1 *)
  Ld1Lane 1 3 11 src_ptr3 (Imm 1); (* 1517: ld1 { v3.b }[11], [%[src_ptr3]], #1 *)
  Cmp W 2 (Imm 12); (* 1518: cmp w2, #12 *)
  B EQ (Fwd 5); (* 1518: beq 5f *)
  Ld1Lane 1 0 12 src_ptr0 (Imm 1); (* 1518: ld1 { v0.b }[12], [%[src_ptr0]], #1 *)
  Ld1Lane 1 1 12 src_ptr1 (Imm 1); (* 1518: ld1 { v1.b }[12], [%[src_ptr1]], #1 *)
  Ld1Lane 1 2 12 src_ptr2 (Imm 1); (* 1518: ld1 { v2.b }[12], [%[src_ptr2]], #1 *)
  Ld1Lane 1 3 12 src_ptr3 (Imm 1); (* 1518: ld1 { v3.b }[12], [%[src_ptr3]], #1 *)
  Cmp W 2 (Imm 13); (* 1519: cmp w2, #13 *)
  B EQ (Fwd 5); (* 1519: beq 5f *)
  Ld1Lane 1 0 13 src_ptr0 (Imm 1); (* 1519: ld1 { v0.b }[13], [%[src_ptr0]], #1 *)
  Ld1Lane 1 1 13 src_ptr1 (Imm 1); (* 1519: ld1 { v1.b }[13], [%[src_ptr1]], #1 *)
  Ld1Lane 1 2 13 src_ptr2 (Imm 1); (* 1519: ld1 { v2.b }[13], [%[src_ptr2]], #1 *)
  Ld1Lane 1 3 13 src_ptr3 (Imm 1); (* 1519: ld1 { v3.b }[13], [%[src_ptr3]], #1 *)
  Cmp W 2 (Imm 14); (* 1520: cmp w2, #14 *)
  B EQ (Fwd 5); (* 1520: beq 5f *)
  Ld1Lane 1 0 14 src_ptr0 (Imm 1); (* 1520: ld1 { v0.b }[14], [%[src_ptr0]], #1 *)
  Ld1Lane 1 1 14 src_ptr1 (Imm 1); (* 1520: ld1 { v1.b }[14], [%[src_ptr1]], #1 *)
  Ld1Lane 1 2 14 src_ptr2 (Imm 1); (* 1520: ld1 { v2.b }[14], [%[src_ptr2]], #1 *)
  Ld1Lane 1 3 14 src_ptr3 (Imm 1); (* 1520: ld1 { v3.b }[14], [%[src_ptr3]], #1 *)
  Label 5; (* 1524: 5: *)
  V2 Eor 0 0 26; (* 1526: eor v0.16b, v0.16b, v26.16b *)
  V2 Eor 1 1 26; (* 1527: eor v1.16b, v1.16b, v26.16b *)
  V2 Eor 2 2 26; (* 1528: eor v2.16b, v2.16b, v26.16b *)
  V2 Eor 3 3 26; (* 1529: eor v3.16b, v3.16b, v26.16b *)
  V2 (Trn1 4) 16 0 1; (* 1531: trn1 v16.4s, v0.4s, v1.4s *)
  V2 (Trn2 4) 17 0 1; (* 1532: trn2 v17.4s, v0.4s, v1.4s *)
  V2 (Trn1 4) 18 2 3; (* 1533: trn1 v18.4s, v2.4s, v3.4s *)
  V2 (Trn2 4) 19 2 3; (* 1534: trn2 v19.4s, v2.4s, v3.4s *)
  V2 (Trn1 8) 20 16 18; (* 1536: trn1 v20.2d, v16.2d, v18.2d *)
  V2 (Trn2 8) 22 16 18; (* 1537: trn2 v22.2d, v16.2d, v18.2d *)
  V2 (Trn1 8) 21 17 19; (* 1538: trn1 v21.2d, v17.2d, v19.2d *)
  V2 (Trn2 8) 23 17 19; (* 1539: trn2 v23.2d, v17.2d, v19.2d *)
  Inst 0x4e9b969c; (* 1541: .inst 0x4e9b969c  // sdot v28.4s, v20.16b, v27.16b *)
  StrQ 20 packed_ptr (Imm 0); (* 1542: str q20, [%[packed_ptr], #0] *)
  Cmp W 2 (Imm 4); (* 1543: cmp w2, #4 *)
  B LE (Fwd 4); (* 1544: ble 4f *)
  Inst 0x4e9b96be; (* 1545: .inst 0x4e9b96be  // sdot v30.4s, v21.16b, v27.16b *)
  StrQ 21 packed_ptr (Imm 32); (* 1546: str q21, [%[packed_ptr], #32] *)
  Cmp W 2 (Imm 8); (* 1547: cmp w2, #8 *)
  B LE (Fwd 4); (* 1548: ble 4f *)
  Inst 0x4e9b96dd; (* 1549: .inst 0x4e9b96dd  // sdot v29.4s, v22.16b, v27.16b *)
  StrQ 22 packed_ptr (Imm 64); (* 1550: str q22, [%[packed_ptr], #64] *)
  Cmp W 2 (Imm 12); (* 1551: cmp w2, #12 *)
  B LE (Fwd 4); (* 1552: ble 4f *)
  Inst 0x4e9b96ff; (* 1553: .inst 0x4e9b96ff  // sdot v31.4s, v23.16b, v27.16b *)
  StrQ 23 packed_ptr (Imm 96); (* 1554: str q23, [%[packed_ptr], #96] *)
  Alu AAdd false X packed_ptr packed_ptr (Imm 128); (* 1555: add %[packed_ptr], %[packed_ptr], #128 *)
  Label 4; (* 1557: 4: *)
  V2 (VAdd 4) 28 28 29; (* 1560: add v28.4s, v28.4s, v29.4s *)
  V2 (VAdd 4) 30 30 31; (* 1561: add v30.4s, v30.4s, v31.4s *)
  V2 (VAdd 4) 28 28 30; (* 1562: add v28.4s, v28.4s, v30.4s *)
  Cmp X sums_ptr (Imm 0); (* 1565: cmp %[sums_ptr], #0 *)
  B EQ (Fwd 6); (* 1566: beq 6f *)
  St1 16 28 sums_ptr (Imm 16); (* 1567: st1 {v28.4s}, [%[sums_ptr]], #16 *)
  Label 6 (* 1568: 6: *)
].

(** pack_arm.cc:851-1071, Pack8bitColMajorForNeonDotprodA55ish. *)
Definition pack8_dotprod_a55 : list instr := [
  Dup 1 16 26 input_xor; (* 851: dup v26.16b, %w[input_xor] *)
  Mov W 1 (Imm 1); (* 854: mov w1, #1 *)
  Dup 1 16 27 1; (* 855: dup v27.16b, w1 *)
  Mov W 1 (Imm 0); (* 857: mov w1, #0 *)
  Movi 28 0; (* 859: movi v28.4s, #0 *)
  Movi 29 0; (* 860: movi v29.4s, #0 *)
  Movi 30 0; (* 861: movi v30.4s, #0 *)
  Movi 31 0; (* 862: movi v31.4s, #0 *)
  Alu AAnd true W 2 rows (Imm (-16)); (* 865: ands w2, %w[rows], #-16 *)
  B EQ (Fwd 3); (* 868: beq 3f *)
  Alu AAdd false W 1 1 (Imm 16); (* 870: add w1, w1, #16 *)
  Ldr 8 10 src_ptr0 (Imm 8); (* 871: ldr x10, [%[src_ptr0], #8] *)
  Ld1 8 0 src_ptr0 (Reg src_inc0); (* 872: ld1 {v0.8b}, [%[src_ptr0]], %[src_inc0] *)
  Ldr 8 11 src_ptr1 (Imm 8); (* 873: ldr x11, [%[src_ptr1], #8] *)
  Ld1 8 1 src_ptr1 (Reg src_inc1); (* 874: ld1 {v1.8b}, [%[src_ptr1]], %[src_inc1] *)
  Ldr 8 12 src_ptr2 (Imm 8); (* 875: ldr x12, [%[src_ptr2], #8] *)
  Ld1 8 2 src_ptr2 (Reg src_inc2); (* 876: ld1 {v2.8b}, [%[src_ptr2]], %[src_inc2] *)
  Ldr 8 13 src_ptr3 (Imm 8); (* 877: ldr x13, [%[src_ptr3], #8] *)
  Ld1 8 3 src_ptr3 (Reg src_inc3); (* 878: ld1 {v3.8b}, [%[src_ptr3]], %[src_inc3] *)
  Cmp W 1 (Reg 2); (* 880: cmp w1, w2 *)
  Nop; (* 881: prfm pldl1strm, [%[src_ptr0], #64] *)
  Nop; (* 882: prfm pldl1strm, [%[src_ptr1], #64] *)
  Nop; (* 883: prfm pldl1strm, [%[src_ptr2], #64] *)
  Nop; (* 884: prfm pldl1strm, [%[src_ptr3], #64] *)
  Nop; (* 885: prfm pldl1strm, [%[src_ptr0], #128] *)
  Nop; (* 886: prfm pldl1strm, [%[src_ptr1], #128] *)
  Nop; (* 887: prfm pldl1strm, [%[src_ptr2], #128] *)
  Nop; (* 888: prfm pldl1strm, [%[src_ptr3], #128] *)
  Nop; (* 889: prfm pldl1strm, [%[src_ptr0], #192] *)
  Nop; (* 890: prfm pldl1strm, [%[src_ptr1], #192] *)
  Nop; (* 891: prfm pldl1strm, [%[src_ptr2], #192] *)
  Nop; (* 892: prfm pldl1strm, [%[src_ptr3], #192] *)
  B EQ (Fwd 2); (* 895: beq 2f *)
  Label 1; (* 898: 1: *)
  Alu AAdd false W 1 1 (Imm 16); (* 899: add w1, w1, #16 *)
  Ins 8 0 1 10; (* 904: ins v0.d[1], x10 *)
  Ldr 8 10 src_ptr0 (Imm 8); (* 905: ldr x10, [%[src_ptr0], #8] *)
  Ins 8 1 1 11; (* 906: ins v1.d[1], x11 *)
  Ldr 8 11 src_ptr1 (Imm 8); (* 907: ldr x11, [%[src_ptr1], #8] *)
  Ins 8 2 1 12; (* 908: ins v2.d[1], x12 *)
  Ldr 8 12 src_ptr2 (Imm 8); (* 909: ldr x12, [%[src_ptr2], #8] *)
  Ins 8 3 1 13; (* 910: ins v3.d[1], x13 *)
  Ldr 8 13 src_ptr3 (Imm 8); (* 911: ldr x13, [%[src_ptr3], #8] *)
  V2 Eor 4 0 26; (* 916: eor v4.16b, v0.16b, v26.16b *)
  Ld1 8 0 src_ptr0 (Reg src_inc0); (* 917: ld1 {v0.8b}, [%[src_ptr0]], %[src_inc0] *)
  V2 Eor 5 1 26; (* 918: eor v5.16b, v1.16b, v26.16b *)
  Ld1 8 1 src_ptr1 (Reg src_inc1); (* 919: ld1 {v1.8b}, [%[src_ptr1]], %[src_inc1] *)
  V2 Eor 6 2 26; (* 920: eor v6.16b, v2.16b, v26.16b *)
  Ld1 8 2 src_ptr2 (Reg src_inc2); (* 921: ld1 {v2.8b}, [%[src_ptr2]], %[src_inc2] *)
  V2 Eor 7 3 26; (* 922: eor v7.16b, v3.16b, v26.16b *)
  Ld1 8 3 src_ptr3 (Reg src_inc3); (* 923: ld1 {v3.8b}, [%[src_ptr3]], %[src_inc3] *)
  V2 (Trn1 4) 16 4 5; (* 926: trn1 v16.4s, v4.4s, v5.4s *)
  Nop; (* 927: prfm pldl1strm, [%[src_ptr0], #240] *)
  V2 (Trn2 4) 17 4 5; (* 928: trn2 v17.4s, v4.4s, v5.4s *)
  Nop; (* 929: prfm pldl1strm, [%[src_ptr1], #240] *)
  V2 (Trn1 4) 18 6 7; (* 930: trn1 v18.4s, v6.4s, v7.4s *)
  Nop; (* 931: prfm pldl1strm, [%[src_ptr2], #240] *)
  V2 (Trn2 4) 19 6 7; (* 932: trn2 v19.4s, v6.4s, v7.4s *)
  Nop; (* 933: prfm pldl1strm, [%[src_ptr3], #240] *)
  V2 (Trn1 8) 20 16 18; (* 936: trn1 v20.2d, v16.2d, v18.2d *)
  V2 (Trn2 8) 22 16 18; (* 937: trn2 v22.2d, v16.2d, v18.2d *)
  V2 (Trn1 8) 21 17 19; (* 938: trn1 v21.2d, v17.2d, v19.2d *)
  V2 (Trn2 8) 23 17 19; (* 939: trn2 v23.2d, v17.2d, v19.2d *)
  Cmp W 1 (Reg 2); (* 940: cmp w1, w2 *)
  Inst 0x4e9b969c; (* 944: .inst 0x4e9b969c  // sdot v28.4s, v20.16b, v27.16b *)
  StrQ 20 packed_ptr (Imm 0); (* 945: str q20, [%[packed_ptr], #0] *)
  Inst 0x4e9b96dd; (* 946: .inst 0x4e9b96dd  // sdot v29.4s, v22.16b, v27.16b *)
  StrQ 21 packed_ptr (Imm 32); (* 947: str q21, [%[packed_ptr], #32] *)
  Inst 0x4e9b96be; (* 948: .inst 0x4e9b96be  // sdot v30.4s, v21.16b, v27.16b *)
  StrQ 22 packed_ptr (Imm 64); (* 949: str q22, [%[packed_ptr], #64] *)
  Inst 0x4e9b96ff; (* 950: .inst 0x4e9b96ff  // sdot v31.4s, v23.16b, v27.16b *)
  StrQ 23 packed_ptr (Imm 96); (* 951: str q23, [%[packed_ptr], #96] *)
  Alu AAdd false X packed_ptr packed_ptr (Imm 128); (* 952: add %[packed_ptr], %[packed_ptr], #128 *)
  B NE (Back 1); (* 954: bne 1b *)
  Label 2; (* 957: 2: *)
  Ins 8 0 1 10; (* 959: ins v0.d[1], x10 *)
  Ins 8 1 1 11; (* 960: ins v1.d[1], x11 *)
  Ins 8 2 1 12; (* 961: ins v2.d[1], x12 *)
  Ins 8 3 1 13; (* 962: ins v3.d[1], x13 *)
  V2 Eor 0 0 26; (* 963: eor v0.16b, v0.16b, v26.16b *)
  V2 Eor 1 1 26; (* 964: eor v1.16b, v1.16b, v26.16b *)
  V2 Eor 2 2 26; (* 965: eor v2.16b, v2.16b, v26.16b *)
  V2 Eor 3 3 26; (* 966: eor v3.16b, v3.16b, v26.16b *)
  V2 (Trn1 4) 16 0 1; (* 968: trn1 v16.4s, v0.4s, v1.4s *)
  V2 (Trn2 4) 17 0 1; (* 969: trn2 v17.4s, v0.4s, v1.4s *)
  V2 (Trn1 4) 18 2 3; (* 970: trn1 v18.4s, v2.4s, v3.4s *)
  V2 (Trn2 4) 19 2 3; (* 971: trn2 v19.4s, v2.4s, v3.4s *)
  V2 (Trn1 8) 20 16 18; (* 973: trn1 v20.2d, v16.2d, v18.2d *)
  V2 (Trn2 8) 22 16 18; (* 974: trn2 v22.2d, v16.2d, v18.2d *)
  V2 (Trn1 8) 21 17 19; (* 975: trn1 v21.2d, v17.2d, v19.2d *)
  V2 (Trn2 8) 23 17 19; (* 976: trn2 v23.2d, v17.2d, v19.2d *)
  Inst 0x4e9b969c; (* 978: .inst 0x4e9b969c  // sdot v28.4s, v20.16b, v27.16b *)
  StrQ 20 packed_ptr (Imm 0); (* 979: str q20, [%[packed_ptr], #0] *)
  Inst 0x4e9b96dd; (* 980: .inst 0x4e9b96dd  // sdot v29.4s, v22.16b, v27.16b *)
  StrQ 21 packed_ptr (Imm 32); (* 981: str q21, [%[packed_ptr], #32] *)
  Inst 0x4e9b96be; (* 982: .inst 0x4e9b96be  // sdot v30.4s, v21.16b, v27.16b *)
  StrQ 22 packed_ptr (Imm 64); (* 983: str q22, [%[packed_ptr], #64] *)
  Inst 0x4e9b96ff; (* 984: .inst 0x4e9b96ff  // sdot v31.4s, v23.16b, v27.16b *)
  StrQ 23 packed_ptr (Imm 96); (* 985: str q23, [%[packed_ptr], #96] *)
  Alu AAdd false X packed_ptr packed_ptr (Imm 128); (* 986: add %[packed_ptr], %[packed_ptr], #128 *)
  Label 3; (* 990: 3: *)
  Alu AAnd true W 2 rows (Imm 15); (* 992: ands w2, %w[rows], #15 *)
  B EQ (Fwd 4); (* 994: beq 4f *)
  Dup 1 16 0 src_zero_point; (* 997: dup v0.16b, %w[src_zero_point] *)
  Dup 1 16 1 src_zero_point; (* 998: dup v1.16b, %w[src_zero_point] *)
  Dup 1 16 2 src_zero_point; (* 999: dup v2.16b, %w[src_zero_point] *)
  Dup 1 16 3 src_zero_point; (* 1000: dup v3.16b, %w[src_zero_point] *)
  Cmp W 2 (Imm 0); (* 1009: cmp w2, #0 *)
  B EQ (Fwd 5); (* 1009: beq 5f *)
  Ld1Lane 1 0 0 src_ptr0 (Imm 1); (* 1009: ld1 { v0.b }[0], [%[src_ptr0]], #1 *)
  Ld1Lane 1 1 0 src_ptr1 (Imm 1); (* 1009: ld1 { v1.b }[0], [%[src_ptr1]], #1 *)
  Ld1Lane 1 2 0 src_ptr2 (Imm 1); (* 1009: ld1 { v2.b }[0], [%[src_ptr2]], #1 *)
  Ld1Lane 1 3 0 src_ptr3 (Imm 1); (* 1009: ld1 { v3.b }[0], [%[src_ptr3]], #1 *)
  Cmp W 2 (Imm 1); (* 1010: cmp w2, #1 *)
  B EQ (Fwd 5); (* 1010: beq 5f *)
  Ld1Lane 1 0 1 src_ptr0 (Imm 1); (* 1010: ld1 { v0.b }[1], [%[src_ptr0]], #1 *)
  Ld1Lane 1 1 1 src_ptr1 (Imm 1); (* 1010: ld1 { v1.b }[1], [%[src_ptr1]], #1 *)
  Ld1Lane 1 2 1 src_ptr2 (Imm 1); (* 1010: ld1 { v2.b }[1], [%[src_ptr2]], #1 *)
  Ld1Lane 1 3 1 src_ptr3 (Imm 1); (* 1010: ld1 { v3.b }[1], [%[src_ptr3]], #1 *)
  Cmp W 2 (Imm 2); (* 1011: cmp w2, #2 *)
  B EQ (Fwd 5); (* 1011: beq 5f *)
  Ld1Lane 1 0 2 src_ptr0 (Imm 1); (* 1011: ld1 { v0.b }[2], [%[src_ptr0]], #1 *)
  Ld1Lane 1 1 2 src_ptr1 (Imm 1); (* 1011: ld1 { v1.b }[2], [%[src_ptr1]], #1 *)
  Ld1Lane 1 2 2 src_ptr2 (Imm 1); (* 1011: ld1 { v2.b }[2], [%[src_ptr2]], #1 *)
  Ld1Lane 1 3 2 src_ptr3 (Imm 1); (* 1011: ld1 { v3.b }[2], [%[src_ptr3]], #1 *)
  Cmp W 2 (Imm 3); (* 1012: cmp w2, #3 *)
  B EQ (Fwd 5); (* 1012: beq 5f *)
  Ld1Lane 1 0 3 src_ptr0 (Imm 1); (* 1012: ld1 { v0.b }[3], [%[src_ptr0]], #1 *)
  Ld1Lane 1 1 3 src_ptr1 (Imm 1); (* 1012: ld1 { v1.b }[3], [%[src_ptr1]], #1 *)
  Ld1Lane 1 2 3 src_ptr2 (Imm 1); (* 1012: ld1 { v2.b }[3], [%[src_ptr2]], #1 *)
  Ld1Lane 1 3 3 src_ptr3 (Imm 1); (* 1012: ld1 { v3.b }[3], [%[src_ptr3]], #1 *)
  Cmp W 2 (Imm 4); (* 1013: cmp w2, #4 *)
  B EQ (Fwd 5); (* 1013: beq 5f *)
  Ld1Lane 1 0 4 src_ptr0 (Imm 1); (* 1013: ld1 { v0.b }[4], [%[src_ptr0]], #1 *)
  Ld1Lane 1 1 4 src_ptr1 (Imm 1); (* 1013: ld1 { v1.b }[4], [%[src_ptr1]], #1 *)
  Ld1Lane 1 2 4 src_ptr2 (Imm 1); (* 1013: ld1 { v2.b }[4], [%[src_ptr2]], #1 *)
  Ld1Lane 1 3 4 src_ptr3 (Imm 1); (* 1013: ld1 { v3.b }[4], [%[src_ptr3]], #1 *)
  Cmp W 2 (Imm 5); (* 1014: cmp w2, #5 *)
  B EQ (Fwd 5); (* 1014: beq 5f *)
  Ld1Lane 1 0 5 src_ptr0 (Imm 1); (* 1014: ld1 { v0.b }[5], [%[src_ptr0]], #1 *)
  Ld1Lane 1 1 5 src_ptr1 (Imm 1); (* 1014: ld1 { v1.b }[5], [%[src_ptr1]], #1 *)
  Ld1Lane 1 2 5 src_ptr2 (Imm 1); (* 1014: ld1 { v2.b }[5], [%[src_ptr2]], #1 *)
  Ld1Lane 1 3 5 src_ptr3 (Imm 1); (* 1014: ld1 { v3.b }[5], [%[src_ptr3]], #1 *)
  Cmp W 2 (Imm 6); (* 1015: cmp w2, #6 *)
  B EQ (Fwd 5); (* 1015: beq 5f *)
  Ld1Lane 1 0 6 src_ptr0 (Imm 1); (* 1015: ld1 { v0.b }[6], [%[src_ptr0]], #1 *)
  Ld1Lane 1 1 6 src_ptr1 (Imm 1); (* 1015: ld1 { v1.b }[6], [%[src_ptr1]], #1 *)
  Ld1Lane 1 2 6 src_ptr2 (Imm 1); (* 1015: ld1 { v2.b }[6], [%[src_ptr2]], #1 *)
  Ld1Lane 1 3 6 src_ptr3 (Imm 1); (* 1015: ld1 { v3.b }[6], [%[src_ptr3]], #1 *)
  Cmp W 2 (Imm 7); (* 1016: cmp w2, #7 *)
  B EQ (Fwd 5); (* 1016: beq 5f *)
  Ld1Lane 1 0 7 src_ptr0 (Imm 1); (* 1016: ld1 { v0.b }[7], [%[src_ptr0]], #1 *)
  Ld1Lane 1 1 7 src_ptr1 (Imm 1); (* 1016: ld1 { v1.b }[7], [%[src_ptr1]], #1 *)
  Ld1Lane 1 2 7 src_ptr2 (Imm 1); (* 1016: ld1 { v2.b }[7], [%[src_ptr2]], #1 *)
  Ld1Lane 1 3 7 src_ptr3 (Imm 1); (* 1016: ld1 { v3.b }[7], [%[src_ptr3]], #1 *)
  Cmp W 2 (Imm 8); (* 1017: cmp w2, #8 *)
  B EQ (Fwd 5); (* 1017: beq 5f *)
  Ld1Lane 1 0 8 src_ptr0 (Imm 1); (* 1017: ld1 { v0.b }[8], [%[src_ptr0]], #1 *)
  Ld1Lane 1 1 8 src_ptr1 (Imm 1); (* 1017: ld1 { v1.b }[8], [%[src_ptr1]], #1 *)
  Ld1Lane 1 2 8 src_ptr2 (Imm 1); (* 1017: ld1 { v2.b }[8], [%[src_ptr2]], #1 *)
  Ld1Lane 1 3 8 src_ptr3 (Imm 1); (* 1017: ld1 { v3.b }[8], [%[src_ptr3]], #1 *)
  Cmp W 2 (Imm 9); (* 1018: cmp w2, #9 *)
  B EQ (Fwd 5); (* 1018: beq 5f *)
  Ld1Lane 1 0 9 src_ptr0 (Imm 1); (* 1018: ld1 { v0.b }[9], [%[src_ptr0]], #1 *)
  Ld1Lane 1 1 9 src_ptr1 (Imm 1); (* 1018: ld1 { v1.b }[9], [%[src_ptr1]], #1 *)
  Ld1Lane 1 2 9 src_ptr2 (Imm 1); (* 1018: ld1 { v2.b }[9], [%[src_ptr2]], #1 *)
  Ld1Lane 1 3 9 src_ptr3 (Imm 1); (* 1018: ld1 { v3.b }[9], [%[src_ptr3]], #1 *)
  Cmp W 2 (Imm 10); (* 1019: cmp w2, #10 *)
  B EQ (Fwd 5); (* 1019: beq 5f *)
  Ld1Lane 1 0 10 src_ptr0 (Imm 1); (* 1019: ld1 { v0.b }[10], [%[src_ptr0]], #1 *)
  Ld1Lane 1 1 10 src_ptr1 (Imm 1); (* 1019: ld1 { v1.b }[10], [%[src_ptr1]], #1 *)
  Ld1Lane 1 2 10 src_ptr2 (Imm 1); (* 1019: ld1 { v2.b }[10], [%[src_ptr2]], #1 *)
  Ld1Lane 1 3 10 src_ptr3 (Imm 1); (* 1019: ld1 { v3.b }[10], [%[src_ptr3]], #1 *)
  Cmp W 2 (Imm 11); (* 1020: cmp w2, #11 *)
  B EQ (Fwd 5); (* 1020: beq 5f *)
  Ld1Lane 1 0 11 src_ptr0 (Imm 1); (* 1020: ld1 { v0.b }[11], [%[src_ptr0]], #1 *)
  Ld1Lane 1 1 11 src_ptr1 (Imm 1); (* 1020: ld1 { v1.b }[11], [%[src_ptr1]], #1 *)
  Ld1Lane 1 2 11 src_ptr2 (Imm 1); (* 1020: ld1 { v2.b }[11], [%[src_ptr2]], #1 *)
  Ld1Lane 1 3 11 src_ptr3 (Imm 1); (* 1020: ld1 { v3.b }[11], [%[src_ptr3]], #1 *)
  Cmp W 2 (Imm 12); (* 1021: cmp w2, #12 *)
  B EQ (Fwd 5); (* 1021: beq 5f *)
  Ld1Lane 1 0 12 src_ptr0 (Imm 1); (* 1021: ld1 { v0.b }[12], [%[src_ptr0]], #1 *)
  Ld1Lane 1 1 12 src_ptr1 (Imm 1); (* 1021: ld1 { v1.b }[12], [%[src_ptr1]], #1 *)
  Ld1Lane 1 2 12 src_ptr2 (Imm 1); (* 1021: ld1 { v2.b }[12], [%[src_ptr2]], #1 *)
  Ld1Lane 1 3 12 src_ptr3 (Imm 1); (* 1021: ld1 { v3.b }[12], [%[src_ptr3]], #1 *)
  Cmp W 2 (Imm 13); (* 1022: cmp w2, #13 *)
  B EQ (Fwd 5); (* 1022: beq 5f *)
  Ld1Lane 1 0 13 src_ptr0 (Imm 1); (* 1022: ld1 { v0.b }[13], [%[src_ptr0]], #1 *)
  Ld1Lane 1 1 13 src_ptr1 (Imm 1); (* 1022: ld1 { v1.b }[13], [%[src_ptr1]], #1 *)
  Ld1Lane 1 2 13 src_ptr2 (Imm 1); (* 1022: ld1 { v2.b }[13], [%[src_ptr2]], #1 *)
  Ld1Lane 1 3 13 src_ptr3 (Imm 1); (* 1022: ld1 { v3.b }[13], [%[src_ptr3]], #1 *)
  Cmp W 2 (Imm 14); (* 1023: cmp w2, #14 *)
  B EQ (Fwd 5); (* 1023: beq 5f *)
  Ld1Lane 1 0 14 src_ptr0 (Imm 1); (* 1023: ld1 { v0.b }[14], [%[src_ptr0]], #1 *)
  Ld1Lane 1 1 14 src_ptr1 (Imm 1); (* 1023: ld1 { v1.b }[14], [%[src_ptr1]], #1 *)
  Ld1Lane 1 2 14 src_ptr2 (Imm 1); (* 1023: ld1 { v2.b }[14], [%[src_ptr2]], #1 *)
  Ld1Lane 1 3 14 src_ptr3 (Imm 1); (* 1023: ld1 { v3.b }[14], [%[src_ptr3]], #1 *)
  Label 5; (* 1027: 5: *)
  V2 Eor 0 0 26; (* 1029: eor v0.16b, v0.16b, v26.16b *)
  V2 Eor 1 1 26; (* 1030: eor v1.16b, v1.16b, v26.16b *)
  V2 Eor 2 2 26; (* 1031: eor v2.16b, v2.16b, v26.16b *)
  V2 Eor 3 3 26; (* 1032: eor v3.16b, v3.16b, v26.16b *)
  V2 (Trn1 4) 16 0 1; (* 1034: trn1 v16.4s, v0.4s, v1.4s *)
  V2 (Trn2 4) 17 0 1; (* 1035: trn2 v17.4s, v0.4s, v1.4s *)
  V2 (Trn1 4) 18 2 3; (* 1036: trn1 v18.4s, v2.4s, v3.4s *)
  V2 (Trn2 4) 19 2 3; (* 1037: trn2 v19.4s, v2.4s, v3.4s *)
  V2 (Trn1 8) 20 16 18; (* 1039: trn1 v20.2d, v16.2d, v18.2d *)
  V2 (Trn2 8) 22 16 18; (* 1040: trn2 v22.2d, v16.2d, v18.2d *)
  V2 (Trn1 8) 21 17 19; (* 1041: trn1 v21.2d, v17.2d, v19.2d *)
  V2 (Trn2 8) 23 17 19; (* 1042: trn2 v23.2d, v17.2d, v19.2d *)
  Inst 0x4e9b969c; (* 1044: .inst 0x4e9b969c  // sdot v28.4s, v20.16b, v27.16b *)
  StrQ 20 packed_ptr (Imm 0); (* 1045: str q20, [%[packed_ptr], #0] *)
  Cmp W 2 (Imm 4); (* 1046: cmp w2, #4 *)
  B LE (Fwd 4); (* 1047: ble 4f *)
  Inst 0x4e9b96be; (* 1048: .inst 0x4e9b96be  // sdot v30.4s, v21.16b, v27.16b *)
  StrQ 21 packed_ptr (Imm 32); (* 1049: str q21, [%[packed_ptr], #32] *)
  Cmp W 2 (Imm 8); (* 1050: cmp w2, #8 *)
  B LE (Fwd 4); (* 1051: ble 4f *)
  Inst 0x4e9b96dd; (* 1052: .inst 0x4e9b96dd  // sdot v29.4s, v22.16b, v27.16b *)
  StrQ 22 packed_ptr (Imm 64); (* 1053: str q22, [%[packed_ptr], #64] *)
  Cmp W 2 (Imm 12); (* 1054: cmp w2, #12 *)
  B LE (Fwd 4); (* 1055: ble 4f *)
  Inst 0x4e9b96ff; (* 1056: .inst 0x4e9b96ff  // sdot v31.4s, v23.16b, v27.16b *)
  StrQ 23 packed_ptr (Imm 96); (* 1057: str q23, [%[packed_ptr], #96] *)
  Alu AAdd false X packed_ptr packed_ptr (Imm 128); (* 1058: add %[packed_ptr], %[packed_ptr], #128 *)
  Label 4; (* 1060: 4: *)
  V2 (VAdd 4) 28 28 29; (* 1063: add v28.4s, v28.4s, v29.4s *)
  V2 (VAdd 4) 30 30 31; (* 1064: add v30.4s, v30.4s, v31.4s *)
  V2 (VAdd 4) 28 28 30; (* 1065: add v28.4s, v28.4s, v30.4s *)
  Cmp X sums_ptr (Imm 0); (* 1068: cmp %[sums_ptr], #0 *)
  B EQ (Fwd 6); (* 1069: beq 6f *)
  St1 16 28 sums_ptr (Imm 16); (* 1070: st1 {v28.4s}, [%[sums_ptr]], #16 *)
  Label 6 (* 1071: 6: *)
].

(** pack_arm.cc:1598-1722, Pack8bitRowMajorForNeonDotprod. *)
Definition pack8_row_dotprod : list instr := [
  Nop; (* 1598: prfm pldl1strm, [%[src_ptr0]] *)
  Nop; (* 1599: prfm pldl1strm, [%[src_ptr1]] *)
  Nop; (* 1600: prfm pldl1strm, [%[src_ptr2]] *)
  Nop; (* 1601: prfm pldl1strm, [%[src_ptr3]] *)
  Alu ASub true W 0 src_cols (Imm 8); (* 1603: subs w0, %w[src_cols], 8 *)
  Nop; (* 1604: prfm pldl1strm, [%[src_ptr0], 64] *)
  Dup 1 16 26 input_xor; (* 1606: dup v26.16b, %w[input_xor] *)
  Nop; (* 1607: prfm pldl1strm, [%[src_ptr1], 64] *)
  Movi 27 1; (* 1609: movi v27.16b, 1 *)
  Nop; (* 1610: prfm pldl1strm, [%[src_ptr2], 64] *)
  B LT (Fwd 2); (* 1613: blt 2f *)
  Nop; (* 1614: prfm pldl1strm, [%[src_ptr3], 64] *)
  Label 1; (* 1616: 1: *)
  Ld1 8 0 src_ptr0 (Imm 0); (* 1619: ld1 {v0.8b}, [%[src_ptr0]] *)
  Ld1 8 1 src_ptr1 (Imm 0); (* 1620: ld1 {v1.8b}, [%[src_ptr1]] *)
  Ld1 8 2 src_ptr2 (Imm 0); (* 1621: ld1 {v2.8b}, [%[src_ptr2]] *)
  Ld1 8 3 src_ptr3 (Imm 0); (* 1622: ld1 {v3.8b}, [%[src_ptr3]] *)
  V2 (Zip1 1) 0 0 1; (* 1625: zip1 v0.16b, v0.16b, v1.16b *)
  LdrQ 8 sums_ptr (Imm 0); (* 1626: ldr q8, [%[sums_ptr], 0] *)
  V2 (Zip1 1) 1 2 3; (* 1627: zip1 v1.16b, v2.16b, v3.16b *)
  LdrQ 9 sums_ptr (Imm 16); (* 1628: ldr q9, [%[sums_ptr], 16] *)
  V2 (Zip1 2) 2 0 1; (* 1631: zip1 v2.8h, v0.8h, v1.8h *)
  Nop; (* 1632: prfm pldl1strm, [%[src_ptr0], 128] *)
  V2 (Zip2 2) 3 0 1; (* 1633: zip2 v3.8h, v0.8h, v1.8h *)
  Nop; (* 1636: prfm pldl1strm, [%[src_ptr1], 128] *)
  V2 Eor 2 2 26; (* 1637: eor v2.16b, v2.16b, v26.16b *)
  Nop; (* 1638: prfm pldl1strm, [%[src_ptr2], 128] *)
  V2 Eor 3 3 26; (* 1639: eor v3.16b, v3.16b, v26.16b *)
  Nop; (* 1641: prfm pldl1strm, [%[src_ptr3], 128] *)
  Inst 0x4e9b9448; (* 1642: .inst 0x4e9b9448  // sdot v8.4s, v2.16b, v27.16b *)
  Inst 0x4e9b9469; (* 1643: .inst 0x4e9b9469  // sdot v9.4s, v3.16b, v27.16b *)
  StrQ 2 packed_ptr (Imm 0); (* 1646: str q2, [%[packed_ptr], 0] *)
  Alu AAdd false X src_ptr0 src_ptr0 (Sxtw src_inc0); (* 1647: add %[src_ptr0], %[src_ptr0], %w[src_inc0], sxtw *)
  StrQ 3 packed_ptr (Imm 16); (* 1648: str q3, [%[packed_ptr], 16] *)
  Alu AAdd false X src_ptr1 src_ptr1 (Sxtw src_inc1); (* 1649: add %[src_ptr1], %[src_ptr1], %w[src_inc1], sxtw *)
  St1 16 8 sums_ptr (Imm 16); (* 1652: st1 {v8.4s}, [%[sums_ptr]], 16 *)
  Alu AAdd false X packed_ptr packed_ptr (Lsl packed_stride 3); (* 1653: add %[packed_ptr], %[packed_ptr], %[packed_stride], lsl 3 *)
  St1 16 9 sums_ptr (Imm 16); (* 1654: st1 {v9.4s}, [%[sums_ptr]], 16 *)
  Alu ASub true W 0 0 (Imm 8); (* 1656: subs w0, w0, 8 *)
  Alu AAdd false X src_ptr2 src_ptr2 (Sxtw src_inc2); (* 1657: add %[src_ptr2], %[src_ptr2], %w[src_inc2], sxtw *)
  Alu AAdd false X src_ptr3 src_ptr3 (Sxtw src_inc3); (* 1658: add %[src_ptr3], %[src_ptr3], %w[src_inc3], sxtw *)
  B GE (Back 1); (* 1660: bge 1b *)
  Label 2; (* 1662: 2: *)
  Alu AAdd true W 0 0 (Imm 8); (* 1665: adds w0, w0, 8 *)
  B EQ (Fwd 3); (* 1667: beq 3f *)
  Dup 1 8 0 src_zero_point; (* 1669: dup v0.8b, %w[src_zero_point] *)
  Dup 1 8 1 src_zero_point; (* 1670: dup v1.8b, %w[src_zero_point] *)
  Dup 1 8 2 src_zero_point; (* 1671: dup v2.8b, %w[src_zero_point] *)
  Dup 1 8 3 src_zero_point; (* 1672: dup v3.8b, %w[src_zero_point] *)
  Cmp W 0 (Imm 0); (* 1682: cmp w0, 0 *)
  B EQ (Fwd 4); (* 1682: beq 4f *)
  Ld1Lane 1 0 0 src_ptr0 (Imm 1); (* 1682: ld1 { v0.b }[0], [%[src_ptr0]], #1 *)
  Ld1Lane 1 1 0 src_ptr1 (Imm 1); (* 1682: ld1 { v1.b }[0], [%[src_ptr1]], #1 *)
  Ld1Lane 1 2 0 src_ptr2 (Imm 1); (* 1682: ld1 { v2.b }[0], [%[src_ptr2]], #1 *)
  Ld1Lane 1 3 0 src_ptr3 (Imm 1); (* 1682: ld1 { v3.b }[0], [%[src_ptr3]], #1 *)
  Cmp W 0 (Imm 1); (* 1683: cmp w0, 1 *)
  B EQ (Fwd 4); (* 1683: beq 4f *)
  Ld1Lane 1 0 1 src_ptr0 (Imm 1); (* 1683: ld1 { v0.b }[1], [%[src_ptr0]], #1 *)
  Ld1Lane 1 1 1 src_ptr1 (Imm 1); (* 1683: ld1 { v1.b }[1], [%[src_ptr1]], #1 *)
  Ld1Lane 1 2 1 src_ptr2 (Imm 1); (* 1683: ld1 { v2.b }[1], [%[src_ptr2]], #1 *)
  Ld1Lane 1 3 1 src_ptr3 (Imm 1); (* 1683: ld1 { v3.b }[1], [%[src_ptr3]], #1 *)
  Cmp W 0 (Imm 2); (* 1684: cmp w0, 2 *)
  B EQ (Fwd 4); (* 1684: beq 4f *)
  Ld1Lane 1 0 2 src_ptr0 (Imm 1); (* 1684: ld1 { v0.b }[2], [%[src_ptr0]], #1 *)
  Ld1Lane 1 1 2 src_ptr1 (Imm 1); (* 1684: ld1 { v1.b }[2], [%[src_ptr1]], #1 *)
  Ld1Lane 1 2 2 src_ptr2 (Imm 1); (* 1684: ld1 { v2.b }[2], [%[src_ptr2]], #1 *)
  Ld1Lane 1 3 2 src_ptr3 (Imm 1); (* 1684: ld1 { v3.b }[2], [%[src_ptr3]], #1 *)
  Cmp W 0 (Imm 3); (* 1685: cmp w0, 3 *)
  B EQ (Fwd 4); (* 1685: beq 4f *)
  Ld1Lane 1 0 3 src_ptr0 (Imm 1); (* 1685: ld1 { v0.b }[3], [%[src_ptr0]], #1 *)
  Ld1Lane 1 1 3 src_ptr1 (Imm 1); (* 1685: ld1 { v1.b }[3], [%[src_ptr1]], #1 *)
  Ld1Lane 1 2 3 src_ptr2 (Imm 1); (* 1685: ld1 { v2.b }[3], [%[src_ptr2]], #1 *)
  Ld1Lane 1 3 3 src_ptr3 (Imm 1); (* 1685: ld1 { v3.b }[3], [%[src_ptr3]], #1 *)
  Cmp W 0 (Imm 4); (* 1686: cmp w0, 4 *)
  B EQ (Fwd 4); (* 1686: beq 4f *)
  Ld1Lane 1 0 4 src_ptr0 (Imm 1); (* 1686: ld1 { v0.b }[4], [%[src_ptr0]], #1 *)
  Ld1Lane 1 1 4 src_ptr1 (Imm 1); (* 1686: ld1 { v1.b }[4], [%[src_ptr1]], #1 *)
  Ld1Lane 1 2 4 src_ptr2 (Imm 1); (* 1686: ld1 { v2.b }[4], [%[src_ptr2]], #1 *)
  Ld1Lane 1 3 4 src_ptr3 (Imm 1); (* 1686: ld1 { v3.b }[4], [%[src_ptr3]], #1 *)
  Cmp W 0 (Imm 5); (* 1687: cmp w0, 5 *)
  B EQ (Fwd 4); (* 1687: beq 4f *)
  Ld1Lane 1 0 5 src_ptr0 (Imm 1); (* 1687: ld1 { v0.b }[5], [%[src_ptr0]], #1 *)
  Ld1Lane 1 1 5 src_ptr1 (Imm 1); (* 1687: ld1 { v1.b }[5], [%[src_ptr1]], #1 *)
  Ld1Lane 1 2 5 src_ptr2 (Imm 1); (* 1687: ld1 { v2.b }[5], [%[src_ptr2]], #1 *)
  Ld1Lane 1 3 5 src_ptr3 (Imm 1); (* 1687: ld1 { v3.b }[5], [%[src_ptr3]], #1 *)
  Cmp W 0 (Imm 6); (* 1688: cmp w0, 6 *)
  B EQ (Fwd 4); (* 1688: beq 4f *)
  Ld1Lane 1 0 6 src_ptr0 (Imm 1); (* 1688: ld1 { v0.b }[6], [%[src_ptr0]], #1 *)
  Ld1Lane 1 1 6 src_ptr1 (Imm 1); (* 1688: ld1 { v1.b }[6], [%[src_ptr1]], #1 *)
  Ld1Lane 1 2 6 src_ptr2 (Imm 1); (* 1688: ld1 { v2.b }[6], [%[src_ptr2]], #1 *)
  Ld1Lane 1 3 6 src_ptr3 (Imm 1); (* 1688: ld1 { v3.b }[6], [%[src_ptr3]], #1 *)
  Label 4; (* 1692: 4: *)
  V2 (Zip1 1) 0 0 1; (* 1697: zip1 v0.16b, v0.16b, v1.16b *)
  LdrQ 8 sums_ptr (Imm 0); (* 1698: ldr q8, [%[sums_ptr], 0] *)
  V2 (Zip1 1) 1 2 3; (* 1699: zip1 v1.16b, v2.16b, v3.16b *)
  LdrQ 9 sums_ptr (Imm 16); (* 1700: ldr q9, [%[sums_ptr], 16] *)
  V2 (Zip1 2) 2 0 1; (* 1703: zip1 v2.8h, v0.8h, v1.8h *)
  V2 (Zip2 2) 3 0 1; (* 1704: zip2 v3.8h, v0.8h, v1.8h *)
  V2 Eor 2 2 26; (* 1707: eor v2.16b, v2.16b, v26.16b *)
  V2 Eor 3 3 26; (* 1708: eor v3.16b, v3.16b, v26.16b *)
  Inst 0x4e9b9448; (* 1710: .inst 0x4e9b9448  // sdot v8.4s, v2.16b, v27.16b *)
  Inst 0x4e9b9469; (* 1711: .inst 0x4e9b9469  // sdot v9.4s, v3.16b, v27.16b *)
  StrQ 2 packed_ptr (Imm 0); (* 1714: str q2, [%[packed_ptr], 0] *)
  StrQ 3 packed_ptr (Imm 16); (* 1715: str q3, [%[packed_ptr], 16] *)
  St1 16 8 sums_ptr (Imm 16); (* 1718: st1 {v8.4s}, [%[sums_ptr]], 16 *)
  St1 16 9 sums_ptr (Imm 16); (* 1719: st1 {v9.4s}, [%[sums_ptr]], 16 *)
  Label 3 (* 1722: 3: *)
].

(** pack_arm.cc:1746-1865, PackFloatColMajorForNeon@0. *)
Definition packf_neon : list instr := [
  Mov W 1 (Imm 0); (* 1746: mov w1, #0 *)
  Alu AAnd true W 2 rows (Imm (-4)); (* 1748: ands w2, %w[rows], #-4 *)
  B EQ (Fwd 3); (* 1751: beq 3f *)
  Alu AAdd false W 1 1 (Imm 4); (* 1753: add w1, w1, #4 *)
  Ld1 16 0 src_ptr0 (Reg src_inc0); (* 1754: ld1 {v0.4s}, [%[src_ptr0]], %[src_inc0] *)
  Ld1 16 1 src_ptr1 (Reg src_inc1); (* 1755: ld1 {v1.4s}, [%[src_ptr1]], %[src_inc1] *)
  Cmp W 1 (Reg 2); (* 1757: cmp w1, w2 *)
  Ld1 16 2 src_ptr2 (Reg src_inc2); (* 1758: ld1 {v2.4s}, [%[src_ptr2]], %[src_inc2] *)
  Ld1 16 3 src_ptr3 (Reg src_inc3); (* 1759: ld1 {v3.4s}, [%[src_ptr3]], %[src_inc3] *)
  B EQ (Fwd 2); (* 1762: beq 2f *)
  Label 1; (* 1764: 1: *)
  Alu AAdd false W 1 1 (Imm 4); (* 1766: add w1, w1, #4 *)
  V2 (Trn1 4) 16 0 1; (* 1768: trn1 v16.4s, v0.4s, v1.4s *)
  V2 (Trn2 4) 17 0 1; (* 1769: trn2 v17.4s, v0.4s, v1.4s *)
  V2 (Trn1 4) 18 2 3; (* 1770: trn1 v18.4s, v2.4s, v3.4s *)
  V2 (Trn2 4) 19 2 3; (* 1771: trn2 v19.4s, v2.4s, v3.4s *)
  Ld1 16 0 src_ptr0 (Reg src_inc0); (* 1773: ld1 {v0.4s}, [%[src_ptr0]], %[src_inc0] *)
  Ld1 16 1 src_ptr1 (Reg src_inc1); (* 1774: ld1 {v1.4s}, [%[src_ptr1]], %[src_inc1] *)
  Ld1 16 2 src_ptr2 (Reg src_inc2); (* 1775: ld1 {v2.4s}, [%[src_ptr2]], %[src_inc2] *)
  Ld1 16 3 src_ptr3 (Reg src_inc3); (* 1776: ld1 {v3.4s}, [%[src_ptr3]], %[src_inc3] *)
  V2 (Trn1 8) 20 16 18; (* 1778: trn1 v20.2d, v16.2d, v18.2d *)
  V2 (Trn2 8) 22 16 18; (* 1779: trn2 v22.2d, v16.2d, v18.2d *)
  V2 (Trn1 8) 21 17 19; (* 1780: trn1 v21.2d, v17.2d, v19.2d *)
  V2 (Trn2 8) 23 17 19; (* 1781: trn2 v23.2d, v17.2d, v19.2d *)
  Cmp W 1 (Reg 2); (* 1783: cmp w1, w2 *)
  StrQ 20 packed_ptr (Imm 0); (* 1785: str q20, [%[packed_ptr], #0] *)
  StrQ 21 packed_ptr (Imm 32); (* 1786: str q21, [%[packed_ptr], #32] *)
  StrQ 22 packed_ptr (Imm 64); (* 1787: str q22, [%[packed_ptr], #64] *)
  StrQ 23 packed_ptr (Imm 96); (* 1788: str q23, [%[packed_ptr], #96] *)
  Alu AAdd false X packed_ptr packed_ptr (Imm 128); (* 1789: add %[packed_ptr], %[packed_ptr], #128 *)
  B NE (Back 1); (* 1791: bne 1b *)
  Label 2; (* 1794: 2: *)
  V2 (Trn1 4) 16 0 1; (* 1796: trn1 v16.4s, v0.4s, v1.4s *)
  V2 (Trn2 4) 17 0 1; (* 1797: trn2 v17.4s, v0.4s, v1.4s *)
  V2 (Trn1 4) 18 2 3; (* 1798: trn1 v18.4s, v2.4s, v3.4s *)
  V2 (Trn2 4) 19 2 3; (* 1799: trn2 v19.4s, v2.4s, v3.4s *)
  V2 (Trn1 8) 20 16 18; (* 1801: trn1 v20.2d, v16.2d, v18.2d *)
  V2 (Trn2 8) 22 16 18; (* 1802: trn2 v22.2d, v16.2d, v18.2d *)
  V2 (Trn1 8) 21 17 19; (* 1803: trn1 v21.2d, v17.2d, v19.2d *)
  V2 (Trn2 8) 23 17 19; (* 1804: trn2 v23.2d, v17.2d, v19.2d *)
  StrQ 20 packed_ptr (Imm 0); (* 1806: str q20, [%[packed_ptr], #0] *)
  StrQ 21 packed_ptr (Imm 32); (* 1807: str q21, [%[packed_ptr], #32] *)
  StrQ 22 packed_ptr (Imm 64); (* 1808: str q22, [%[packed_ptr], #64] *)
  StrQ 23 packed_ptr (Imm 96); (* 1809: str q23, [%[packed_ptr], #96] *)
  Alu AAdd false X packed_ptr packed_ptr (Imm 128); (* 1810: add %[packed_ptr], %[packed_ptr], #128 *)
  Label 3; (* 1814: 3: *)
  Alu AAnd true W 2 rows (Imm 3); (* 1816: ands w2, %w[rows], #3 *)
  B EQ (Fwd 4); (* 1818: beq 4f *)
  Movi 0 0; (* 1821: movi v0.16b, #0 *)
  Movi 1 0; (* 1822: movi v1.16b, #0 *)
  Movi 2 0; (* 1823: movi v2.16b, #0 *)
  Movi 3 0; (* 1824: movi v3.16b, #0 *)
  Cmp W 2 (Imm 0); (* 1833: cmp w2, #0 *)
  B EQ (Fwd 5); (* 1833: beq 5f *)
  Ld1Lane 4 0 0 src_ptr0 (Imm 4); (* 1833: ld1 { v0.s }[0], [%[src_ptr0]], #4 *)
  Ld1Lane 4 1 0 src_ptr1 (Imm 4); (* 1833: ld1 { v1.s }[0], [%[src_ptr1]], #4 *)
  Ld1Lane 4 2 0 src_ptr2 (Imm 4); (* 1833: ld1 { v2.s }[0], [%[src_ptr2]], #4 *)
  Ld1Lane 4 3 0 src_ptr3 (Imm 4); (* 1833: ld1 { v3.s }[0], [%[src_ptr3]], #4 *)
  Cmp W 2 (Imm 1); (* 1834: cmp w2, #1 *)
  B EQ (Fwd 5); (* 1834: beq 5f *)
  Ld1Lane 4 0 1 src_ptr0 (Imm 4); (* 1834: ld1 { v0.s }[1], [%[src_ptr0]], #4 *)
  Ld1Lane 4 1 1 src_ptr1 (Imm 4); (* 1834: ld1 { v1.s }[1], [%[src_ptr1]], #4 *)
  Ld1Lane 4 2 1 src_ptr2 (Imm 4); (* 1834: ld1 { v2.s }[1], [%[src_ptr2]], #4 *)
  Ld1Lane 4 3 1 src_ptr3 (Imm 4); (* 1834: ld1 { v3.s }[1], [%[src_ptr3]], #4 *)
  Cmp W 2 (Imm 2); (* 1835: cmp w2, #2 *)
  B EQ (Fwd 5); (* 1835: beq 5f *)
  Ld1Lane 4 0 2 src_ptr0 (Imm 4); (* 1835: ld1 { v0.s }[2], [%[src_ptr0]], #4 *)
  Ld1Lane 4 1 2 src_ptr1 (Imm 4); (* 1835: ld1 { v1.s }[2], [%[src_ptr1]], #4 *)
  Ld1Lane 4 2 2 src_ptr2 (Imm 4); (* 1835: ld1 { v2.s }[2], [%[src_ptr2]], #4 *)
  Ld1Lane 4 3 2 src_ptr3 (Imm 4); (* 1835: ld1 { v3.s }[2], [%[src_ptr3]], #4 *)
  Label 5; (* 1838: 5: *)
  V2 (Trn1 4) 16 0 1; (* 1841: trn1 v16.4s, v0.4s, v1.4s *)
  V2 (Trn2 4) 17 0 1; (* 1842: trn2 v17.4s, v0.4s, v1.4s *)
  V2 (Trn1 4) 18 2 3; (* 1843: trn1 v18.4s, v2.4s, v3.4s *)
  V2 (Trn2 4) 19 2 3; (* 1844: trn2 v19.4s, v2.4s, v3.4s *)
  V2 (Trn1 8) 20 16 18; (* 1846: trn1 v20.2d, v16.2d, v18.2d *)
  V2 (Trn2 8) 22 16 18; (* 1847: trn2 v22.2d, v16.2d, v18.2d *)
  V2 (Trn1 8) 21 17 19; (* 1848: trn1 v21.2d, v17.2d, v19.2d *)
  V2 (Trn2 8) 23 17 19; (* 1849: trn2 v23.2d, v17.2d, v19.2d *)
  Mov X 1 (Imm 32); (* 1852: mov x1, #32 *)
  Cmp W 2 (Imm 0); (* 1858: cmp w2, #0 *)
  B EQ (Fwd 4); (* 1858: beq 4f *)
  St1 16 20 packed_ptr (Reg 1); (* 1858: st1 {v20.4s}, [%[packed_ptr]], x1 *)
  Cmp W 2 (Imm 1); (* 1859: cmp w2, #1 *)
  B EQ (Fwd 4); (* 1859: beq 4f *)
  St1 16 21 packed_ptr (Reg 1); (* 1859: st1 {v21.4s}, [%[packed_ptr]], x1 *)
  Cmp W 2 (Imm 2); (* 1860: cmp w2, #2 *)
  B EQ (Fwd 4); (* 1860: beq 4f *)
  St1 16 22 packed_ptr (Reg 1); (* 1860: st1 {v22.4s}, [%[packed_ptr]], x1 *)
  Cmp W 2 (Imm 3); (* 1861: cmp w2, #3 *)
  B EQ (Fwd 4); (* 1861: beq 4f *)
  St1 16 23 packed_ptr (Reg 1); (* 1861: st1 {v23.4s}, [%[packed_ptr]], x1 *)
  Label 4 (* 1865: 4: *)
].

(** pack_arm.cc:2077-2207, PackFloatColMajorForNeonA55ish. *)
Definition packf_neon_a55 : list instr := [
  Mov W 1 (Imm 0); (* 2077: mov w1, #0 *)
  Alu AAnd false W 2 rows (Imm (-4)); (* 2079: and w2, %w[rows], #-4 *)
  Cmp W 1 (Reg 2); (* 2080: cmp w1, w2 *)
  B EQ (Fwd 3); (* 2081: beq 3f *)
  Ld1 16 0 src_ptr0 (Reg src_inc0); (* 2082: ld1 {v0.4s}, [%[src_ptr0]], %[src_inc0] *)
  Ld1 16 1 src_ptr1 (Reg src_inc1); (* 2083: ld1 {v1.4s}, [%[src_ptr1]], %[src_inc1] *)
  Ld1 16 2 src_ptr2 (Reg src_inc2); (* 2084: ld1 {v2.4s}, [%[src_ptr2]], %[src_inc2] *)
  Ld1 16 3 src_ptr3 (Reg src_inc3); (* 2085: ld1 {v3.4s}, [%[src_ptr3]], %[src_inc3] *)
  Nop; (* 2086: prfm pldl1strm, [%[src_ptr0], #64] *)
  Nop; (* 2087: prfm pldl1strm, [%[src_ptr1], #64] *)
  Nop; (* 2088: prfm pldl1strm, [%[src_ptr2], #64] *)
  Nop; (* 2089: prfm pldl1strm, [%[src_ptr3], #64] *)
  Nop; (* 2090: prfm pldl1strm, [%[src_ptr0], #128] *)
  Nop; (* 2091: prfm pldl1strm, [%[src_ptr1], #128] *)
  Nop; (* 2092: prfm pldl1strm, [%[src_ptr2], #128] *)
  Nop; (* 2093: prfm pldl1strm, [%[src_ptr3], #128] *)
  Nop; (* 2094: prfm pldl1strm, [%[src_ptr0], #192] *)
  Nop; (* 2095: prfm pldl1strm, [%[src_ptr1], #192] *)
  Nop; (* 2096: prfm pldl1strm, [%[src_ptr2], #192] *)
  Nop; (* 2097: prfm pldl1strm, [%[src_ptr3], #192] *)
  Alu AAdd false W 1 1 (Imm 4); (* 2098: add w1, w1, #4 *)
  Cmp W 1 (Reg 2); (* 2099: cmp w1, w2 *)
  B EQ (Fwd 2); (* 2101: beq 2f *)
  Label 1; (* 2103: 1: *)
  Alu AAdd false W 1 1 (Imm 4); (* 2104: add w1, w1, #4 *)
  Ldr 8 10 src_ptr0 (Imm 8); (* 2106: ldr x10, [%[src_ptr0], #8] *)
  V2 (Trn1 4) 16 0 1; (* 2107: trn1 v16.4s, v0.4s, v1.4s *)
  Nop; (* 2108: prfm pldl1strm, [%[src_ptr0], #240] *)
  Ldr 8 11 src_ptr1 (Imm 8); (* 2109: ldr x11, [%[src_ptr1], #8] *)
  V2 (Trn2 4) 17 0 1; (* 2110: trn2 v17.4s, v0.4s, v1.4s *)
  Nop; (* 2111: prfm pldl1strm, [%[src_ptr1], #240] *)
  Ldr 8 12 src_ptr2 (Imm 8); (* 2112: ldr x12, [%[src_ptr2], #8] *)
  V2 (Trn1 4) 18 2 3; (* 2113: trn1 v18.4s, v2.4s, v3.4s *)
  Nop; (* 2114: prfm pldl1strm, [%[src_ptr2], #240] *)
  Ldr 8 13 src_ptr3 (Imm 8); (* 2115: ldr x13, [%[src_ptr3], #8] *)
  V2 (Trn2 4) 19 2 3; (* 2116: trn2 v19.4s, v2.4s, v3.4s *)
  Nop; (* 2117: prfm pldl1strm, [%[src_ptr3], #240] *)
  Ld1 8 0 src_ptr0 (Reg src_inc0); (* 2119: ld1 {v0.2s}, [%[src_ptr0]], %[src_inc0] *)
  V2 (Trn1 8) 20 16 18; (* 2120: trn1 v20.2d, v16.2d, v18.2d *)
  Ld1 8 1 src_ptr1 (Reg src_inc1); (* 2121: ld1 {v1.2s}, [%[src_ptr1]], %[src_inc1] *)
  V2 (Trn2 8) 22 16 18; (* 2122: trn2 v22.2d, v16.2d, v18.2d *)
  Ld1 8 2 src_ptr2 (Reg src_inc2); (* 2123: ld1 {v2.2s}, [%[src_ptr2]], %[src_inc2] *)
  V2 (Trn1 8) 21 17 19; (* 2124: trn1 v21.2d, v17.2d, v19.2d *)
  Ld1 8 3 src_ptr3 (Reg src_inc3); (* 2125: ld1 {v3.2s}, [%[src_ptr3]], %[src_inc3] *)
  V2 (Trn2 8) 23 17 19; (* 2126: trn2 v23.2d, v17.2d, v19.2d *)
  Cmp W 1 (Reg 2); (* 2127: cmp w1, w2 *)
  Ins 8 0 1 10; (* 2129: ins v0.d[1], x10 *)
  StrQ 20 packed_ptr (Imm 0); (* 2130: str q20, [%[packed_ptr], #0] *)
  Ins 8 1 1 11; (* 2131: ins v1.d[1], x11 *)
  StrQ 21 packed_ptr (Imm 32); (* 2132: str q21, [%[packed_ptr], #32] *)
  Ins 8 2 1 12; (* 2133: ins v2.d[1], x12 *)
  StrQ 22 packed_ptr (Imm 64); (* 2134: str q22, [%[packed_ptr], #64] *)
  Ins 8 3 1 13; (* 2135: ins v3.d[1], x13 *)
  StrQ 23 packed_ptr (Imm 96); (* 2136: str q23, [%[packed_ptr], #96] *)
  Alu AAdd false X packed_ptr packed_ptr (Imm 128); (* 2138: add %[packed_ptr], %[packed_ptr], #128 *)
  B NE (Back 1); (* 2140: bne 1b *)
  Label 2; (* 2142: 2: *)
  V2 (Trn1 4) 16 0 1; (* 2144: trn1 v16.4s, v0.4s, v1.4s *)
  V2 (Trn2 4) 17 0 1; (* 2145: trn2 v17.4s, v0.4s, v1.4s *)
  V2 (Trn1 4) 18 2 3; (* 2146: trn1 v18.4s, v2.4s, v3.4s *)
  V2 (Trn2 4) 19 2 3; (* 2147: trn2 v19.4s, v2.4s, v3.4s *)
  V2 (Trn1 8) 20 16 18; (* 2149: trn1 v20.2d, v16.2d, v18.2d *)
  V2 (Trn2 8) 22 16 18; (* 2150: trn2 v22.2d, v16.2d, v18.2d *)
  V2 (Trn1 8) 21 17 19; (* 2151: trn1 v21.2d, v17.2d, v19.2d *)
  V2 (Trn2 8) 23 17 19; (* 2152: trn2 v23.2d, v17.2d, v19.2d *)
  StrQ 20 packed_ptr (Imm 0); (* 2154: str q20, [%[packed_ptr], #0] *)
  StrQ 21 packed_ptr (Imm 32); (* 2155: str q21, [%[packed_ptr], #32] *)
  StrQ 22 packed_ptr (Imm 64); (* 2156: str q22, [%[packed_ptr], #64] *)
  StrQ 23 packed_ptr (Imm 96); (* 2157: str q23, [%[packed_ptr], #96] *)
  Alu AAdd false X packed_ptr packed_ptr (Imm 128); (* 2158: add %[packed_ptr], %[packed_ptr], #128 *)
  Label 3; (* 2160: 3: *)
  Alu AAnd true W 2 rows (Imm 3); (* 2162: ands w2, %w[rows], #3 *)
  B EQ (Fwd 4); (* 2163: beq 4f *)
  Movi 0 0; (* 2164: movi v0.16b, #0 *)
  Movi 1 0; (* 2165: movi v1.16b, #0 *)
  Movi 2 0; (* 2166: movi v2.16b, #0 *)
  Movi 3 0; (* 2167: movi v3.16b, #0 *)
  Cmp W 2 (Imm 0); (* 2176: cmp w2, #0 *)
  B EQ (Fwd 5); (* 2176: beq 5f *)
  Ld1Lane 4 0 0 src_ptr0 (Imm 4); (* 2176: ld1 { v0.s }[0], [%[src_ptr0]], #4 *)
  Ld1Lane 4 1 0 src_ptr1 (Imm 4); (* 2176: ld1 { v1.s }[0], [%[src_ptr1]], #4 *)
  Ld1Lane 4 2 0 src_ptr2 (Imm 4); (* 2176: ld1 { v2.s }[0], [%[src_ptr2]], #4 *)
  Ld1Lane 4 3 0 src_ptr3 (Imm 4); (* 2176: ld1 { v3.s }[0], [%[src_ptr3]], #4 *)
  Cmp W 2 (Imm 1); (* 2177: cmp w2, #1 *)
  B EQ (Fwd 5); (* 2177: beq 5f *)
  Ld1Lane 4 0 1 src_ptr0 (Imm 4); (* 2177: ld1 { v0.s }[1], [%[src_ptr0]], #4 *)
  Ld1Lane 4 1 1 src_ptr1 (Imm 4); (* 2177: ld1 { v1.s }[1], [%[src_ptr1]], #4 *)
  Ld1Lane 4 2 1 src_ptr2 (Imm 4); (* 2177: ld1 { v2.s }[1], [%[src_ptr2]], #4 *)
  Ld1Lane 4 3 1 src_ptr3 (Imm 4); (* 2177: ld1 { v3.s }[1], [%[src_ptr3]], #4 *)
  Cmp W 2 (Imm 2); (* 2178: cmp w2, #2 *)
  B EQ (Fwd 5); (* 2178: beq 5f *)
  Ld1Lane 4 0 2 src_ptr0 (Imm 4); (* 2178: ld1 { v0.s }[2], [%[src_ptr0]], #4 *)
  Ld1Lane 4 1 2 src_ptr1 (Imm 4); (* 2178: ld1 { v1.s }[2], [%[src_ptr1]], #4 *)
  Ld1Lane 4 2 2 src_ptr2 (Imm 4); (* 2178: ld1 { v2.s }[2], [%[src_ptr2]], #4 *)
  Ld1Lane 4 3 2 src_ptr3 (Imm 4); (* 2178: ld1 { v3.s }[2], [%[src_ptr3]], #4 *)
  Cmp W 2 (Imm 3); (* 2179: cmp w2, #3 *)
  B EQ (Fwd 5); (* 2179: beq 5f *)
  Ld1Lane 4 0 3 src_ptr0 (Imm 4); (* 2179: ld1 { v0.s }[3], [%[src_ptr0]], #4 *)
  Ld1Lane 4 1 3 src_ptr1 (Imm 4); (* 2179: ld1 { v1.s }[3], [%[src_ptr1]], #4 *)
  Ld1Lane 4 2 3 src_ptr2 (Imm 4); (* 2179: ld1 { v2.s }[3], [%[src_ptr2]], #4 *)
  Ld1Lane 4 3 3 src_ptr3 (Imm 4); (* 2179: ld1 { v3.s }[3], [%[src_ptr3]], #4 *)
  Label 5; (* 2181: 5: *)
  V2 (Trn1 4) 16 0 1; (* 2183: trn1 v16.4s, v0.4s, v1.4s *)
  V2 (Trn2 4) 17 0 1; (* 2184: trn2 v17.4s, v0.4s, v1.4s *)
  V2 (Trn1 4) 18 2 3; (* 2185: trn1 v18.4s, v2.4s, v3.4s *)
  V2 (Trn2 4) 19 2 3; (* 2186: trn2 v19.4s, v2.4s, v3.4s *)
  V2 (Trn1 8) 20 16 18; (* 2188: trn1 v20.2d, v16.2d, v18.2d *)
  V2 (Trn2 8) 22 16 18; (* 2189: trn2 v22.2d, v16.2d, v18.2d *)
  V2 (Trn1 8) 21 17 19; (* 2190: trn1 v21.2d, v17.2d, v19.2d *)
  V2 (Trn2 8) 23 17 19; (* 2191: trn2 v23.2d, v17.2d, v19.2d *)
  Mov X 1 (Imm 32); (* 2193: mov x1, #32 *)
  Cmp W 2 (Imm 0); (* 2200: cmp w2, #0 *)
  B EQ (Fwd 4); (* 2200: beq 4f *)
  St1 16 20 packed_ptr (Reg 1); (* 2200: st1 {v20.4s}, [%[packed_ptr]], x1 *)
  Cmp W 2 (Imm 1); (* 2201: cmp w2, #1 *)
  B EQ (Fwd 4); (* 2201: beq 4f *)
  St1 16 21 packed_ptr (Reg 1); (* 2201: st1 {v21.4s}, [%[packed_ptr]], x1 *)
  Cmp W 2 (Imm 2); (* 2202: cmp w2, #2 *)
  B EQ (Fwd 4); (* 2202: beq 4f *)
  St1 16 22 packed_ptr (Reg 1); (* 2202: st1 {v22.4s}, [%[packed_ptr]], x1 *)
  Cmp W 2 (Imm 3); (* 2203: cmp w2, #3 *)
  B EQ (Fwd 4); (* 2203: beq 4f *)
  St1 16 23 packed_ptr (Reg 1); (* 2203: st1 {v23.4s}, [%[packed_ptr]], x1 *)
  Label 4 (* 2207: 4: *)
].
