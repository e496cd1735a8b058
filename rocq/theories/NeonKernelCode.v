(** The assembly of the float kernels for AArch64 in ruy/kernel_arm64.cc.

    Transcribed from the sources by tools/asm2coq.py: for each instruction its line and text. The operands of
    the asm statements are kept in registers chosen by the compiler, numbered from 40 here. *)
From Coq Require Import ZArith List.
From Verif Require Import Neon64.
Import ListNotations.
Open Scope Z_scope.

Local Notation lhs_col_ptr := 40%nat (only parsing).
Local Notation rhs_col_ptr := 41%nat (only parsing).
Local Notation lhs_ptr := 42%nat (only parsing).
Local Notation rhs_ptr := 43%nat (only parsing).
Local Notation dst_col_ptr := 44%nat (only parsing).
Local Notation dst_ptr := 45%nat (only parsing).
Local Notation row := 46%nat (only parsing).
Local Notation col := 47%nat (only parsing).
Local Notation params := 48%nat (only parsing).
Local Notation dst_rows := 49%nat (only parsing).
Local Notation dst_cols := 50%nat (only parsing).
Local Notation dst_tmp_buf := 51%nat (only parsing).

(** kernel_arm64.cc:7751-8319, KernelFloatNeon. *)
Definition kernelf_neon : list instr := [
  Ldr 8 5 params (Imm 0); (* 7751: ldr x5, [%[params], #0] *)
  Ldr 4 6 params (Imm 32); (* 7752: ldr w6, [%[params], #32] *)
  Ldr 4 7 params (Imm 40); (* 7753: ldr w7, [%[params], #40] *)
  Ldr 4 8 params (Imm 44); (* 7754: ldr w8, [%[params], #44] *)
  Ldr 4 9 params (Imm 56); (* 7755: ldr w9, [%[params], #56] *)
  Ldr 4 10 params (Imm 60); (* 7756: ldr w10, [%[params], #60] *)
  Ldr 4 11 params (Imm 64); (* 7757: ldr w11, [%[params], #64] *)
  Ldr 4 12 params (Imm 68); (* 7758: ldr w12, [%[params], #68] *)
  Ld1 16 0 lhs_ptr (Imm 16); (* 7761: ld1 {v0.4s}, [%[lhs_ptr]], #16 *)
  Ld1 16 1 lhs_ptr (Imm 16); (* 7762: ld1 {v1.4s}, [%[lhs_ptr]], #16 *)
  Ld1 16 2 rhs_ptr (Imm 16); (* 7763: ld1 {v2.4s}, [%[rhs_ptr]], #16 *)
  Ld1 16 3 rhs_ptr (Imm 16); (* 7764: ld1 {v3.4s}, [%[rhs_ptr]], #16 *)
  Movi 16 0; (* 7767: movi v16.4s, #0 *)
  Movi 17 0; (* 7768: movi v17.4s, #0 *)
  Movi 18 0; (* 7769: movi v18.4s, #0 *)
  Movi 19 0; (* 7770: movi v19.4s, #0 *)
  Movi 20 0; (* 7771: movi v20.4s, #0 *)
  Movi 21 0; (* 7772: movi v21.4s, #0 *)
  Movi 22 0; (* 7773: movi v22.4s, #0 *)
  Movi 23 0; (* 7774: movi v23.4s, #0 *)
  Movi 24 0; (* 7775: movi v24.4s, #0 *)
  Movi 25 0; (* 7776: movi v25.4s, #0 *)
  Movi 26 0; (* 7777: movi v26.4s, #0 *)
  Movi 27 0; (* 7778: movi v27.4s, #0 *)
  Movi 28 0; (* 7779: movi v28.4s, #0 *)
  Movi 29 0; (* 7780: movi v29.4s, #0 *)
  Movi 30 0; (* 7781: movi v30.4s, #0 *)
  Movi 31 0; (* 7782: movi v31.4s, #0 *)
  Mov W 1 (Imm 1); (* 7787: mov w1, #1 *)
  Label 1; (* 7791: 1: *)
  Fmla 16 0 2 0; (* 7793: fmla v16.4s, v0.4s, v2.s[0] *)
  Fmla 18 0 2 1; (* 7794: fmla v18.4s, v0.4s, v2.s[1] *)
  Fmla 20 0 2 2; (* 7795: fmla v20.4s, v0.4s, v2.s[2] *)
  Fmla 22 0 2 3; (* 7796: fmla v22.4s, v0.4s, v2.s[3] *)
  Cmp W 12 (Imm 8); (* 7799: cmp w12, #8 *)
  B LT (Fwd 78); (* 7800: blt 78f *)
  Alu AAnd false W 2 12 (Imm (-4)); (* 7801: and w2, w12, #-4 *)
  Ld1 16 4 lhs_ptr (Imm 16); (* 7803: ld1 {v4.4s}, [%[lhs_ptr]], #16 *)
  Ld1 16 5 lhs_ptr (Imm 16); (* 7804: ld1 {v5.4s}, [%[lhs_ptr]], #16 *)
  Ld1 16 6 rhs_ptr (Imm 16); (* 7805: ld1 {v6.4s}, [%[rhs_ptr]], #16 *)
  Ld1 16 7 rhs_ptr (Imm 16); (* 7806: ld1 {v7.4s}, [%[rhs_ptr]], #16 *)
  Ld1 16 8 lhs_ptr (Imm 16); (* 7808: ld1 {v8.4s}, [%[lhs_ptr]], #16 *)
  Ld1 16 9 lhs_ptr (Imm 16); (* 7809: ld1 {v9.4s}, [%[lhs_ptr]], #16 *)
  Ld1 16 10 rhs_ptr (Imm 16); (* 7810: ld1 {v10.4s}, [%[rhs_ptr]], #16 *)
  Ld1 16 11 rhs_ptr (Imm 16); (* 7811: ld1 {v11.4s}, [%[rhs_ptr]], #16 *)
  Ld1 16 12 lhs_ptr (Imm 16); (* 7813: ld1 {v12.4s}, [%[lhs_ptr]], #16 *)
  Ld1 16 13 lhs_ptr (Imm 16); (* 7814: ld1 {v13.4s}, [%[lhs_ptr]], #16 *)
  Ld1 16 14 rhs_ptr (Imm 16); (* 7815: ld1 {v14.4s}, [%[rhs_ptr]], #16 *)
  Ld1 16 15 rhs_ptr (Imm 16); (* 7816: ld1 {v15.4s}, [%[rhs_ptr]], #16 *)
  Mov W 1 (Imm 4); (* 7817: mov w1, #4 *)
  Label 80; (* 7819: 80: *)
  Alu AAdd false X lhs_ptr lhs_ptr (Imm 128); (* 7821: add %[lhs_ptr], %[lhs_ptr], #128 *)
  Alu AAdd false X rhs_ptr rhs_ptr (Imm 128); (* 7822: add %[rhs_ptr], %[rhs_ptr], #128 *)
  Fmla 24 0 3 0; (* 7824: fmla v24.4s, v0.4s, v3.s[0] *)
  Fmla 26 0 3 1; (* 7825: fmla v26.4s, v0.4s, v3.s[1] *)
  Fmla 28 0 3 2; (* 7826: fmla v28.4s, v0.4s, v3.s[2] *)
  Fmla 30 0 3 3; (* 7827: fmla v30.4s, v0.4s, v3.s[3] *)
  LdrQ 0 lhs_ptr (Imm (-128)); (* 7828: ldr q0, [%[lhs_ptr], #-128] *)
  Fmla 25 1 3 0; (* 7829: fmla v25.4s, v1.4s, v3.s[0] *)
  Fmla 27 1 3 1; (* 7830: fmla v27.4s, v1.4s, v3.s[1] *)
  Fmla 29 1 3 2; (* 7831: fmla v29.4s, v1.4s, v3.s[2] *)
  Fmla 31 1 3 3; (* 7832: fmla v31.4s, v1.4s, v3.s[3] *)
  LdrQ 3 rhs_ptr (Imm (-112)); (* 7833: ldr q3, [%[rhs_ptr], #-112] *)
  Fmla 17 1 2 0; (* 7834: fmla v17.4s, v1.4s, v2.s[0] *)
  Fmla 19 1 2 1; (* 7835: fmla v19.4s, v1.4s, v2.s[1] *)
  Fmla 21 1 2 2; (* 7836: fmla v21.4s, v1.4s, v2.s[2] *)
  Fmla 23 1 2 3; (* 7837: fmla v23.4s, v1.4s, v2.s[3] *)
  LdrQ 1 lhs_ptr (Imm (-112)); (* 7838: ldr q1, [%[lhs_ptr], #-112] *)
  Fmla 16 4 6 0; (* 7839: fmla v16.4s, v4.4s, v6.s[0] *)
  Fmla 18 4 6 1; (* 7840: fmla v18.4s, v4.4s, v6.s[1] *)
  LdrQ 2 rhs_ptr (Imm (-128)); (* 7841: ldr q2, [%[rhs_ptr], #-128] *)
  Fmla 20 4 6 2; (* 7842: fmla v20.4s, v4.4s, v6.s[2] *)
  Fmla 22 4 6 3; (* 7843: fmla v22.4s, v4.4s, v6.s[3] *)
  Fmla 24 4 7 0; (* 7845: fmla v24.4s, v4.4s, v7.s[0] *)
  Fmla 26 4 7 1; (* 7846: fmla v26.4s, v4.4s, v7.s[1] *)
  Fmla 28 4 7 2; (* 7847: fmla v28.4s, v4.4s, v7.s[2] *)
  Fmla 30 4 7 3; (* 7848: fmla v30.4s, v4.4s, v7.s[3] *)
  LdrQ 4 lhs_ptr (Imm (-96)); (* 7849: ldr q4, [%[lhs_ptr], #-96] *)
  Fmla 25 5 7 0; (* 7850: fmla v25.4s, v5.4s, v7.s[0] *)
  Fmla 27 5 7 1; (* 7851: fmla v27.4s, v5.4s, v7.s[1] *)
  Fmla 29 5 7 2; (* 7852: fmla v29.4s, v5.4s, v7.s[2] *)
  Fmla 31 5 7 3; (* 7853: fmla v31.4s, v5.4s, v7.s[3] *)
  LdrQ 7 rhs_ptr (Imm (-80)); (* 7854: ldr q7, [%[rhs_ptr], #-80] *)
  Fmla 17 5 6 0; (* 7855: fmla v17.4s, v5.4s, v6.s[0] *)
  Fmla 19 5 6 1; (* 7856: fmla v19.4s, v5.4s, v6.s[1] *)
  Fmla 21 5 6 2; (* 7857: fmla v21.4s, v5.4s, v6.s[2] *)
  Fmla 23 5 6 3; (* 7858: fmla v23.4s, v5.4s, v6.s[3] *)
  LdrQ 5 lhs_ptr (Imm (-80)); (* 7859: ldr q5, [%[lhs_ptr], #-80] *)
  Fmla 16 8 10 0; (* 7860: fmla v16.4s, v8.4s, v10.s[0] *)
  Fmla 18 8 10 1; (* 7861: fmla v18.4s, v8.4s, v10.s[1] *)
  LdrQ 6 rhs_ptr (Imm (-96)); (* 7862: ldr q6, [%[rhs_ptr], #-96] *)
  Fmla 20 8 10 2; (* 7863: fmla v20.4s, v8.4s, v10.s[2] *)
  Fmla 22 8 10 3; (* 7864: fmla v22.4s, v8.4s, v10.s[3] *)
  Fmla 24 8 11 0; (* 7866: fmla v24.4s, v8.4s, v11.s[0] *)
  Fmla 26 8 11 1; (* 7867: fmla v26.4s, v8.4s, v11.s[1] *)
  Fmla 28 8 11 2; (* 7868: fmla v28.4s, v8.4s, v11.s[2] *)
  Fmla 30 8 11 3; (* 7869: fmla v30.4s, v8.4s, v11.s[3] *)
  LdrQ 8 lhs_ptr (Imm (-64)); (* 7870: ldr q8, [%[lhs_ptr], #-64] *)
  Fmla 25 9 11 0; (* 7871: fmla v25.4s, v9.4s, v11.s[0] *)
  Fmla 27 9 11 1; (* 7872: fmla v27.4s, v9.4s, v11.s[1] *)
  Fmla 29 9 11 2; (* 7873: fmla v29.4s, v9.4s, v11.s[2] *)
  Fmla 31 9 11 3; (* 7874: fmla v31.4s, v9.4s, v11.s[3] *)
  LdrQ 11 rhs_ptr (Imm (-48)); (* 7875: ldr q11, [%[rhs_ptr], #-48] *)
  Fmla 17 9 10 0; (* 7876: fmla v17.4s, v9.4s, v10.s[0] *)
  Fmla 19 9 10 1; (* 7877: fmla v19.4s, v9.4s, v10.s[1] *)
  Fmla 21 9 10 2; (* 7878: fmla v21.4s, v9.4s, v10.s[2] *)
  Fmla 23 9 10 3; (* 7879: fmla v23.4s, v9.4s, v10.s[3] *)
  LdrQ 9 lhs_ptr (Imm (-48)); (* 7880: ldr q9, [%[lhs_ptr], #-48] *)
  Fmla 16 12 14 0; (* 7881: fmla v16.4s, v12.4s, v14.s[0] *)
  Fmla 18 12 14 1; (* 7882: fmla v18.4s, v12.4s, v14.s[1] *)
  LdrQ 10 rhs_ptr (Imm (-64)); (* 7883: ldr q10, [%[rhs_ptr], #-64] *)
  Fmla 20 12 14 2; (* 7884: fmla v20.4s, v12.4s, v14.s[2] *)
  Fmla 22 12 14 3; (* 7885: fmla v22.4s, v12.4s, v14.s[3] *)
  Fmla 24 12 15 0; (* 7887: fmla v24.4s, v12.4s, v15.s[0] *)
  Fmla 26 12 15 1; (* 7888: fmla v26.4s, v12.4s, v15.s[1] *)
  Fmla 28 12 15 2; (* 7889: fmla v28.4s, v12.4s, v15.s[2] *)
  Fmla 30 12 15 3; (* 7890: fmla v30.4s, v12.4s, v15.s[3] *)
  LdrQ 12 lhs_ptr (Imm (-32)); (* 7891: ldr q12, [%[lhs_ptr], #-32] *)
  Fmla 25 13 15 0; (* 7892: fmla v25.4s, v13.4s, v15.s[0] *)
  Fmla 27 13 15 1; (* 7893: fmla v27.4s, v13.4s, v15.s[1] *)
  Fmla 29 13 15 2; (* 7894: fmla v29.4s, v13.4s, v15.s[2] *)
  Fmla 31 13 15 3; (* 7895: fmla v31.4s, v13.4s, v15.s[3] *)
  LdrQ 15 rhs_ptr (Imm (-16)); (* 7896: ldr q15, [%[rhs_ptr], #-16] *)
  Fmla 17 13 14 0; (* 7897: fmla v17.4s, v13.4s, v14.s[0] *)
  Fmla 19 13 14 1; (* 7898: fmla v19.4s, v13.4s, v14.s[1] *)
  Fmla 21 13 14 2; (* 7899: fmla v21.4s, v13.4s, v14.s[2] *)
  Fmla 23 13 14 3; (* 7900: fmla v23.4s, v13.4s, v14.s[3] *)
  LdrQ 13 lhs_ptr (Imm (-16)); (* 7901: ldr q13, [%[lhs_ptr], #-16] *)
  Fmla 16 0 2 0; (* 7902: fmla v16.4s, v0.4s, v2.s[0] *)
  Fmla 18 0 2 1; (* 7903: fmla v18.4s, v0.4s, v2.s[1] *)
  LdrQ 14 rhs_ptr (Imm (-32)); (* 7904: ldr q14, [%[rhs_ptr], #-32] *)
  Fmla 20 0 2 2; (* 7905: fmla v20.4s, v0.4s, v2.s[2] *)
  Fmla 22 0 2 3; (* 7906: fmla v22.4s, v0.4s, v2.s[3] *)
  Alu AAdd false W 1 1 (Imm 4); (* 7908: add w1, w1, #4 *)
  Cmp W 1 (Reg 2); (* 7909: cmp w1, w2 *)
  B LT (Back 80); (* 7910: blt 80b *)
  Fmla 16 4 6 0; (* 7912: fmla v16.4s, v4.4s, v6.s[0] *)
  Fmla 18 4 6 1; (* 7913: fmla v18.4s, v4.4s, v6.s[1] *)
  Fmla 20 4 6 2; (* 7914: fmla v20.4s, v4.4s, v6.s[2] *)
  Fmla 22 4 6 3; (* 7915: fmla v22.4s, v4.4s, v6.s[3] *)
  Fmla 24 4 7 0; (* 7916: fmla v24.4s, v4.4s, v7.s[0] *)
  Fmla 26 4 7 1; (* 7917: fmla v26.4s, v4.4s, v7.s[1] *)
  Fmla 28 4 7 2; (* 7918: fmla v28.4s, v4.4s, v7.s[2] *)
  Fmla 30 4 7 3; (* 7919: fmla v30.4s, v4.4s, v7.s[3] *)
  Fmla 25 5 7 0; (* 7920: fmla v25.4s, v5.4s, v7.s[0] *)
  Fmla 27 5 7 1; (* 7921: fmla v27.4s, v5.4s, v7.s[1] *)
  Fmla 29 5 7 2; (* 7922: fmla v29.4s, v5.4s, v7.s[2] *)
  Fmla 31 5 7 3; (* 7923: fmla v31.4s, v5.4s, v7.s[3] *)
  Fmla 17 5 6 0; (* 7924: fmla v17.4s, v5.4s, v6.s[0] *)
  Fmla 19 5 6 1; (* 7925: fmla v19.4s, v5.4s, v6.s[1] *)
  Fmla 21 5 6 2; (* 7926: fmla v21.4s, v5.4s, v6.s[2] *)
  Fmla 23 5 6 3; (* 7927: fmla v23.4s, v5.4s, v6.s[3] *)
  Fmla 16 8 10 0; (* 7929: fmla v16.4s, v8.4s, v10.s[0] *)
  Fmla 18 8 10 1; (* 7930: fmla v18.4s, v8.4s, v10.s[1] *)
  Fmla 20 8 10 2; (* 7931: fmla v20.4s, v8.4s, v10.s[2] *)
  Fmla 22 8 10 3; (* 7932: fmla v22.4s, v8.4s, v10.s[3] *)
  Fmla 24 8 11 0; (* 7933: fmla v24.4s, v8.4s, v11.s[0] *)
  Fmla 26 8 11 1; (* 7934: fmla v26.4s, v8.4s, v11.s[1] *)
  Fmla 28 8 11 2; (* 7935: fmla v28.4s, v8.4s, v11.s[2] *)
  Fmla 30 8 11 3; (* 7936: fmla v30.4s, v8.4s, v11.s[3] *)
  Fmla 25 9 11 0; (* 7937: fmla v25.4s, v9.4s, v11.s[0] *)
  Fmla 27 9 11 1; (* 7938: fmla v27.4s, v9.4s, v11.s[1] *)
  Fmla 29 9 11 2; (* 7939: fmla v29.4s, v9.4s, v11.s[2] *)
  Fmla 31 9 11 3; (* 7940: fmla v31.4s, v9.4s, v11.s[3] *)
  Fmla 17 9 10 0; (* 7941: fmla v17.4s, v9.4s, v10.s[0] *)
  Fmla 19 9 10 1; (* 7942: fmla v19.4s, v9.4s, v10.s[1] *)
  Fmla 21 9 10 2; (* 7943: fmla v21.4s, v9.4s, v10.s[2] *)
  Fmla 23 9 10 3; (* 7944: fmla v23.4s, v9.4s, v10.s[3] *)
  Fmla 16 12 14 0; (* 7946: fmla v16.4s, v12.4s, v14.s[0] *)
  Fmla 18 12 14 1; (* 7947: fmla v18.4s, v12.4s, v14.s[1] *)
  Fmla 20 12 14 2; (* 7948: fmla v20.4s, v12.4s, v14.s[2] *)
  Fmla 22 12 14 3; (* 7949: fmla v22.4s, v12.4s, v14.s[3] *)
  Fmla 24 12 15 0; (* 7950: fmla v24.4s, v12.4s, v15.s[0] *)
  Fmla 26 12 15 1; (* 7951: fmla v26.4s, v12.4s, v15.s[1] *)
  Fmla 28 12 15 2; (* 7952: fmla v28.4s, v12.4s, v15.s[2] *)
  Fmla 30 12 15 3; (* 7953: fmla v30.4s, v12.4s, v15.s[3] *)
  Fmla 25 13 15 0; (* 7954: fmla v25.4s, v13.4s, v15.s[0] *)
  Fmla 27 13 15 1; (* 7955: fmla v27.4s, v13.4s, v15.s[1] *)
  Fmla 29 13 15 2; (* 7956: fmla v29.4s, v13.4s, v15.s[2] *)
  Fmla 31 13 15 3; (* 7957: fmla v31.4s, v13.4s, v15.s[3] *)
  Fmla 17 13 14 0; (* 7958: fmla v17.4s, v13.4s, v14.s[0] *)
  Fmla 19 13 14 1; (* 7959: fmla v19.4s, v13.4s, v14.s[1] *)
  Fmla 21 13 14 2; (* 7960: fmla v21.4s, v13.4s, v14.s[2] *)
  Fmla 23 13 14 3; (* 7961: fmla v23.4s, v13.4s, v14.s[3] *)
  Label 78; (* 7963: 78: *)
  Cmp W 1 (Reg 12); (* 7967: cmp w1, w12 *)
  B EQ (Fwd 79); (* 7968: beq 79f *)
  Label 2; (* 7970: 2: *)
  Fmla 24 0 3 0; (* 7971: fmla v24.4s, v0.4s, v3.s[0] *)
  Fmla 26 0 3 1; (* 7972: fmla v26.4s, v0.4s, v3.s[1] *)
  Ld1 16 4 rhs_ptr (Imm 16); (* 7973: ld1 {v4.4s}, [%[rhs_ptr]], #16 *)
  Fmla 28 0 3 2; (* 7974: fmla v28.4s, v0.4s, v3.s[2] *)
  Fmla 30 0 3 3; (* 7975: fmla v30.4s, v0.4s, v3.s[3] *)
  Ld1 16 0 lhs_ptr (Imm 16); (* 7976: ld1 {v0.4s}, [%[lhs_ptr]], #16 *)
  Fmla 25 1 3 0; (* 7977: fmla v25.4s, v1.4s, v3.s[0] *)
  Fmla 27 1 3 1; (* 7978: fmla v27.4s, v1.4s, v3.s[1] *)
  Alu AAdd false W 1 1 (Imm 1); (* 7979: add w1, w1, #1 *)
  Fmla 29 1 3 2; (* 7980: fmla v29.4s, v1.4s, v3.s[2] *)
  Fmla 31 1 3 3; (* 7981: fmla v31.4s, v1.4s, v3.s[3] *)
  Ld1 16 3 rhs_ptr (Imm 16); (* 7982: ld1 {v3.4s}, [%[rhs_ptr]], #16 *)
  Fmla 17 1 2 0; (* 7983: fmla v17.4s, v1.4s, v2.s[0] *)
  Fmla 19 1 2 1; (* 7984: fmla v19.4s, v1.4s, v2.s[1] *)
  Cmp W 1 (Reg 12); (* 7985: cmp w1, w12 *)
  Fmla 21 1 2 2; (* 7986: fmla v21.4s, v1.4s, v2.s[2] *)
  Fmla 23 1 2 3; (* 7987: fmla v23.4s, v1.4s, v2.s[3] *)
  Ld1 16 1 lhs_ptr (Imm 16); (* 7988: ld1 {v1.4s}, [%[lhs_ptr]], #16 *)
  Fmla 16 0 4 0; (* 7989: fmla v16.4s, v0.4s, v4.s[0] *)
  Fmla 18 0 4 1; (* 7990: fmla v18.4s, v0.4s, v4.s[1] *)
  VMov 2 4; (* 7991: mov v2.16b, v4.16b *)
  Fmla 20 0 4 2; (* 7992: fmla v20.4s, v0.4s, v4.s[2] *)
  Fmla 22 0 4 3; (* 7993: fmla v22.4s, v0.4s, v4.s[3] *)
  B LT (Back 2); (* 7994: blt 2b *)
  Label 79; (* 7996: 79: *)
  Fmla 24 0 3 0; (* 8002: fmla v24.4s, v0.4s, v3.s[0] *)
  Fmla 26 0 3 1; (* 8003: fmla v26.4s, v0.4s, v3.s[1] *)
  Fmla 28 0 3 2; (* 8004: fmla v28.4s, v0.4s, v3.s[2] *)
  Fmla 30 0 3 3; (* 8005: fmla v30.4s, v0.4s, v3.s[3] *)
  Fmla 25 1 3 0; (* 8006: fmla v25.4s, v1.4s, v3.s[0] *)
  Fmla 27 1 3 1; (* 8007: fmla v27.4s, v1.4s, v3.s[1] *)
  Fmla 29 1 3 2; (* 8008: fmla v29.4s, v1.4s, v3.s[2] *)
  Fmla 31 1 3 3; (* 8009: fmla v31.4s, v1.4s, v3.s[3] *)
  Fmla 17 1 2 0; (* 8010: fmla v17.4s, v1.4s, v2.s[0] *)
  Fmla 19 1 2 1; (* 8011: fmla v19.4s, v1.4s, v2.s[1] *)
  Fmla 21 1 2 2; (* 8012: fmla v21.4s, v1.4s, v2.s[2] *)
  Fmla 23 1 2 3; (* 8013: fmla v23.4s, v1.4s, v2.s[3] *)
  Cmp W row (Reg 7); (* 8031: cmp %w[row], w7 *)
  B GE (Fwd 4); (* 8032: bge 4f *)
  Alu AAdd false X lhs_col_ptr lhs_col_ptr (Lsl 9 3); (* 8034: add %[lhs_col_ptr], %[lhs_col_ptr], x9, lsl #3 *)
  B Always (Fwd 5); (* 8035: b 5f *)
  Label 4; (* 8036: 4: *)
  Mov X lhs_col_ptr (Reg 5); (* 8037: mov %[lhs_col_ptr], x5 *)
  Cmp W col (Reg 8); (* 8045: cmp %w[col], w8 *)
  B GE (Fwd 5); (* 8046: bge 5f *)
  Alu AAdd false X rhs_col_ptr rhs_col_ptr (Lsl 10 3); (* 8048: add %[rhs_col_ptr], %[rhs_col_ptr], x10, lsl #3 *)
  Label 5; (* 8049: 5: *)
  Mov X lhs_ptr (Reg lhs_col_ptr); (* 8053: mov %[lhs_ptr], %[lhs_col_ptr] *)
  Mov X rhs_ptr (Reg rhs_col_ptr); (* 8054: mov %[rhs_ptr], %[rhs_col_ptr] *)
  Ldr 1 4 params (Imm 80); (* 8057: ldrb w4, [%[params], #80] *)
  Ldr 8 1 params (Imm 24); (* 8058: ldr x1, [%[params], #24] *)
  Tst W 4 (Imm 32); (* 8061: tst w4, #0x20 *)
  Csel W 3 row col EQ; (* 8062: csel w3, %w[row], %w[col], eq *)
  Alu AAdd false X 5 1 (Lsl 3 2); (* 8065: add x5, x1, x3, lsl #2 *)
  Tst W 4 (Imm 1); (* 8069: tst w4, #0x1 *)
  Csel X 1 1 5 EQ; (* 8070: csel x1, x1, x5, eq *)
  Ld1 16 14 1 (Imm 16); (* 8073: ld1 {v14.4s}, [x1], #16 *)
  Ld1 16 15 1 (Imm 0); (* 8074: ld1 {v15.4s}, [x1] *)
  Ld1 16 0 lhs_ptr (Imm 16); (* 8080: ld1 {v0.4s}, [%[lhs_ptr]], #16 *)
  Ld1 16 1 lhs_ptr (Imm 16); (* 8081: ld1 {v1.4s}, [%[lhs_ptr]], #16 *)
  Ld1 16 2 rhs_ptr (Imm 16); (* 8082: ld1 {v2.4s}, [%[rhs_ptr]], #16 *)
  Ld1 16 3 rhs_ptr (Imm 16); (* 8083: ld1 {v3.4s}, [%[rhs_ptr]], #16 *)
  Tst W 4 (Imm 32); (* 8087: tst w4, #0x20 *)
  B NE (Fwd 6); (* 8088: bne 6f *)
  V2 Fadd 16 16 14; (* 8090: fadd v16.4s, v16.4s, v14.4s *)
  V2 Fadd 17 17 15; (* 8091: fadd v17.4s, v17.4s, v15.4s *)
  V2 Fadd 18 18 14; (* 8092: fadd v18.4s, v18.4s, v14.4s *)
  V2 Fadd 19 19 15; (* 8093: fadd v19.4s, v19.4s, v15.4s *)
  V2 Fadd 20 20 14; (* 8094: fadd v20.4s, v20.4s, v14.4s *)
  V2 Fadd 21 21 15; (* 8095: fadd v21.4s, v21.4s, v15.4s *)
  V2 Fadd 22 22 14; (* 8096: fadd v22.4s, v22.4s, v14.4s *)
  V2 Fadd 23 23 15; (* 8097: fadd v23.4s, v23.4s, v15.4s *)
  V2 Fadd 24 24 14; (* 8098: fadd v24.4s, v24.4s, v14.4s *)
  V2 Fadd 25 25 15; (* 8099: fadd v25.4s, v25.4s, v15.4s *)
  V2 Fadd 26 26 14; (* 8100: fadd v26.4s, v26.4s, v14.4s *)
  V2 Fadd 27 27 15; (* 8101: fadd v27.4s, v27.4s, v15.4s *)
  V2 Fadd 28 28 14; (* 8102: fadd v28.4s, v28.4s, v14.4s *)
  V2 Fadd 29 29 15; (* 8103: fadd v29.4s, v29.4s, v15.4s *)
  V2 Fadd 30 30 14; (* 8104: fadd v30.4s, v30.4s, v14.4s *)
  V2 Fadd 31 31 15; (* 8105: fadd v31.4s, v31.4s, v15.4s *)
  B Always (Fwd 7); (* 8106: b 7f *)
  Label 6; (* 8108: 6: *)
  DupLane 4 4 8 14 0; (* 8110: dup v8.4s, v14.s[0] *)
  DupLane 4 4 9 14 1; (* 8111: dup v9.4s, v14.s[1] *)
  DupLane 4 4 10 14 2; (* 8112: dup v10.4s, v14.s[2] *)
  DupLane 4 4 11 14 3; (* 8113: dup v11.4s, v14.s[3] *)
  DupLane 4 4 12 15 0; (* 8114: dup v12.4s, v15.s[0] *)
  DupLane 4 4 13 15 1; (* 8115: dup v13.4s, v15.s[1] *)
  DupLane 4 4 14 15 2; (* 8116: dup v14.4s, v15.s[2] *)
  DupLane 4 4 15 15 3; (* 8117: dup v15.4s, v15.s[3] *)
  V2 Fadd 16 16 8; (* 8118: fadd v16.4s, v16.4s, v8.4s *)
  V2 Fadd 17 17 8; (* 8119: fadd v17.4s, v17.4s, v8.4s *)
  V2 Fadd 18 18 9; (* 8120: fadd v18.4s, v18.4s, v9.4s *)
  V2 Fadd 19 19 9; (* 8121: fadd v19.4s, v19.4s, v9.4s *)
  V2 Fadd 20 20 10; (* 8122: fadd v20.4s, v20.4s, v10.4s *)
  V2 Fadd 21 21 10; (* 8123: fadd v21.4s, v21.4s, v10.4s *)
  V2 Fadd 22 22 11; (* 8124: fadd v22.4s, v22.4s, v11.4s *)
  V2 Fadd 23 23 11; (* 8125: fadd v23.4s, v23.4s, v11.4s *)
  V2 Fadd 24 24 12; (* 8126: fadd v24.4s, v24.4s, v12.4s *)
  V2 Fadd 25 25 12; (* 8127: fadd v25.4s, v25.4s, v12.4s *)
  V2 Fadd 26 26 13; (* 8128: fadd v26.4s, v26.4s, v13.4s *)
  V2 Fadd 27 27 13; (* 8129: fadd v27.4s, v27.4s, v13.4s *)
  V2 Fadd 28 28 14; (* 8130: fadd v28.4s, v28.4s, v14.4s *)
  V2 Fadd 29 29 14; (* 8131: fadd v29.4s, v29.4s, v14.4s *)
  V2 Fadd 30 30 15; (* 8132: fadd v30.4s, v30.4s, v15.4s *)
  V2 Fadd 31 31 15; (* 8133: fadd v31.4s, v31.4s, v15.4s *)
  Label 7; (* 8134: 7: *)
  Ldr 4 2 params (Imm 72); (* 8137: ldr w2, [%[params], #72] *)
  Ldr 4 3 params (Imm 76); (* 8138: ldr w3, [%[params], #76] *)
  Dup 4 4 14 2; (* 8139: dup v14.4s, w2 *)
  Dup 4 4 15 3; (* 8140: dup v15.4s, w3 *)
  V2 Fmax 16 16 14; (* 8143: fmax v16.4s, v16.4s, v14.4s *)
  V2 Fmax 17 17 14; (* 8144: fmax v17.4s, v17.4s, v14.4s *)
  V2 Fmax 18 18 14; (* 8145: fmax v18.4s, v18.4s, v14.4s *)
  V2 Fmax 19 19 14; (* 8146: fmax v19.4s, v19.4s, v14.4s *)
  V2 Fmax 20 20 14; (* 8147: fmax v20.4s, v20.4s, v14.4s *)
  V2 Fmax 21 21 14; (* 8148: fmax v21.4s, v21.4s, v14.4s *)
  V2 Fmax 22 22 14; (* 8149: fmax v22.4s, v22.4s, v14.4s *)
  V2 Fmax 23 23 14; (* 8150: fmax v23.4s, v23.4s, v14.4s *)
  V2 Fmax 24 24 14; (* 8151: fmax v24.4s, v24.4s, v14.4s *)
  V2 Fmax 25 25 14; (* 8152: fmax v25.4s, v25.4s, v14.4s *)
  V2 Fmax 26 26 14; (* 8153: fmax v26.4s, v26.4s, v14.4s *)
  V2 Fmax 27 27 14; (* 8154: fmax v27.4s, v27.4s, v14.4s *)
  V2 Fmax 28 28 14; (* 8155: fmax v28.4s, v28.4s, v14.4s *)
  V2 Fmax 29 29 14; (* 8156: fmax v29.4s, v29.4s, v14.4s *)
  V2 Fmax 30 30 14; (* 8157: fmax v30.4s, v30.4s, v14.4s *)
  V2 Fmax 31 31 14; (* 8158: fmax v31.4s, v31.4s, v14.4s *)
  V2 Fmin 16 16 15; (* 8161: fmin v16.4s, v16.4s, v15.4s *)
  V2 Fmin 17 17 15; (* 8162: fmin v17.4s, v17.4s, v15.4s *)
  V2 Fmin 18 18 15; (* 8163: fmin v18.4s, v18.4s, v15.4s *)
  V2 Fmin 19 19 15; (* 8164: fmin v19.4s, v19.4s, v15.4s *)
  V2 Fmin 20 20 15; (* 8165: fmin v20.4s, v20.4s, v15.4s *)
  V2 Fmin 21 21 15; (* 8166: fmin v21.4s, v21.4s, v15.4s *)
  V2 Fmin 22 22 15; (* 8167: fmin v22.4s, v22.4s, v15.4s *)
  V2 Fmin 23 23 15; (* 8168: fmin v23.4s, v23.4s, v15.4s *)
  V2 Fmin 24 24 15; (* 8169: fmin v24.4s, v24.4s, v15.4s *)
  V2 Fmin 25 25 15; (* 8170: fmin v25.4s, v25.4s, v15.4s *)
  V2 Fmin 26 26 15; (* 8171: fmin v26.4s, v26.4s, v15.4s *)
  V2 Fmin 27 27 15; (* 8172: fmin v27.4s, v27.4s, v15.4s *)
  V2 Fmin 28 28 15; (* 8173: fmin v28.4s, v28.4s, v15.4s *)
  V2 Fmin 29 29 15; (* 8174: fmin v29.4s, v29.4s, v15.4s *)
  V2 Fmin 30 30 15; (* 8175: fmin v30.4s, v30.4s, v15.4s *)
  V2 Fmin 31 31 15; (* 8176: fmin v31.4s, v31.4s, v15.4s *)
  Alu ASub false W 1 dst_rows (Reg row); (* 8183: sub w1, %w[dst_rows], %w[row] *)
  Alu ASub false W 2 dst_cols (Reg col); (* 8184: sub w2, %w[dst_cols], %w[col] *)
  Mov W 3 (Imm 8); (* 8185: mov w3, #8 *)
  Cmp W 1 (Imm 8); (* 8186: cmp w1, #8 *)
  Csel W 1 1 3 LE; (* 8188: csel w1, w1, w3, le *)
  Cmp W 2 (Imm 8); (* 8189: cmp w2, #8 *)
  Csel W 2 2 3 LE; (* 8191: csel w2, w2, w3, le *)
  Cmp W 1 (Reg 3); (* 8194: cmp w1, w3 *)
  Ccmp W 2 (Reg 3) EQ; (* 8195: ccmp w2, w3, 0, eq *)
  B EQ (Fwd 30); (* 8197: beq 30f *)
  Mov X 3 (Reg dst_tmp_buf); (* 8200: mov x3, %[dst_tmp_buf] *)
  Mov X 4 (Imm 32); (* 8201: mov x4, #32 *)
  B Always (Fwd 31); (* 8202: b 31f *)
  Label 30; (* 8203: 30: *)
  Mov X 3 (Reg dst_ptr); (* 8206: mov x3, %[dst_ptr] *)
  Mov X 4 (Reg 11); (* 8207: mov x4, x11 *)
  Label 31; (* 8208: 31: *)
  Nop; (* 8212: prfm pstl1strm, [x3] *)
  StrQ 16 3 (Imm 0); (* 8213: str q16, [x3, #0] *)
  StrQ 17 3 (Imm 16); (* 8214: str q17, [x3, #16] *)
  Alu AAdd false X 3 3 (Reg 4); (* 8215: add x3, x3, x4 *)
  Nop; (* 8216: prfm pstl1strm, [x3] *)
  Movi 16 0; (* 8217: movi v16.4s, #0 *)
  Movi 17 0; (* 8218: movi v17.4s, #0 *)
  StrQ 18 3 (Imm 0); (* 8219: str q18, [x3, #0] *)
  StrQ 19 3 (Imm 16); (* 8220: str q19, [x3, #16] *)
  Alu AAdd false X 3 3 (Reg 4); (* 8221: add x3, x3, x4 *)
  Nop; (* 8222: prfm pstl1strm, [x3] *)
  Movi 18 0; (* 8223: movi v18.4s, #0 *)
  Movi 19 0; (* 8224: movi v19.4s, #0 *)
  StrQ 20 3 (Imm 0); (* 8225: str q20, [x3, #0] *)
  StrQ 21 3 (Imm 16); (* 8226: str q21, [x3, #16] *)
  Alu AAdd false X 3 3 (Reg 4); (* 8227: add x3, x3, x4 *)
  Nop; (* 8228: prfm pstl1strm, [x3] *)
  Movi 20 0; (* 8229: movi v20.4s, #0 *)
  Movi 21 0; (* 8230: movi v21.4s, #0 *)
  StrQ 22 3 (Imm 0); (* 8231: str q22, [x3, #0] *)
  StrQ 23 3 (Imm 16); (* 8232: str q23, [x3, #16] *)
  Alu AAdd false X 3 3 (Reg 4); (* 8233: add x3, x3, x4 *)
  Nop; (* 8234: prfm pstl1strm, [x3] *)
  Movi 22 0; (* 8235: movi v22.4s, #0 *)
  Movi 23 0; (* 8236: movi v23.4s, #0 *)
  StrQ 24 3 (Imm 0); (* 8237: str q24, [x3, #0] *)
  StrQ 25 3 (Imm 16); (* 8238: str q25, [x3, #16] *)
  Alu AAdd false X 3 3 (Reg 4); (* 8239: add x3, x3, x4 *)
  Nop; (* 8240: prfm pstl1strm, [x3] *)
  Movi 24 0; (* 8241: movi v24.4s, #0 *)
  Movi 25 0; (* 8242: movi v25.4s, #0 *)
  StrQ 26 3 (Imm 0); (* 8243: str q26, [x3, #0] *)
  StrQ 27 3 (Imm 16); (* 8244: str q27, [x3, #16] *)
  Alu AAdd false X 3 3 (Reg 4); (* 8245: add x3, x3, x4 *)
  Nop; (* 8246: prfm pstl1strm, [x3] *)
  Movi 26 0; (* 8247: movi v26.4s, #0 *)
  Movi 27 0; (* 8248: movi v27.4s, #0 *)
  StrQ 28 3 (Imm 0); (* 8249: str q28, [x3, #0] *)
  StrQ 29 3 (Imm 16); (* 8250: str q29, [x3, #16] *)
  Alu AAdd false X 3 3 (Reg 4); (* 8251: add x3, x3, x4 *)
  Nop; (* 8252: prfm pstl1strm, [x3] *)
  Movi 28 0; (* 8253: movi v28.4s, #0 *)
  Movi 29 0; (* 8254: movi v29.4s, #0 *)
  StrQ 30 3 (Imm 0); (* 8255: str q30, [x3, #0] *)
  StrQ 31 3 (Imm 16); (* 8256: str q31, [x3, #16] *)
  Movi 30 0; (* 8257: movi v30.4s, #0 *)
  Movi 31 0; (* 8258: movi v31.4s, #0 *)
  B EQ (Fwd 41); (* 8262: beq 41f *)
  Mov X 3 (Reg dst_tmp_buf); (* 8266: mov x3, %[dst_tmp_buf] *)
  Mov X 4 (Reg dst_ptr); (* 8267: mov x4, %[dst_ptr] *)
  Mov W 6 (Imm 0); (* 8268: mov w6, #0 *)
  Label 50; (* 8269: 50: *)
  Nop; (* 8270: prfm pstl1strm, [x4] *)
  Mov W 5 (Imm 0); (* 8271: mov w5, #0 *)
  Label 51; (* 8272: 51: *)
  Ldr 4 7 3 (Lsl 5 2); (* 8273: ldr w7, [x3, x5, lsl #2] *)
  Str 4 7 4 (Lsl 5 2); (* 8274: str w7, [x4, x5, lsl #2] *)
  Alu AAdd false W 5 5 (Imm 1); (* 8275: add w5, w5, #1 *)
  Cmp W 5 (Reg 1); (* 8276: cmp w5, w1 *)
  B LT (Back 51); (* 8277: blt 51b *)
  Alu AAdd false W 6 6 (Imm 1); (* 8278: add w6, w6, #1 *)
  Alu AAdd false X 3 3 (Imm 32); (* 8279: add x3, x3, #32 *)
  Alu AAdd false X 4 4 (Reg 11); (* 8280: add x4, x4, x11 *)
  Cmp W 6 (Reg 2); (* 8281: cmp w6, w2 *)
  B LT (Back 50); (* 8282: blt 50b *)
  Label 41; (* 8283: 41: *)
  Alu AAdd false X dst_ptr dst_ptr (Imm 32); (* 8284: add %[dst_ptr], %[dst_ptr], #32 *)
  Ldr 8 5 params (Imm 0); (* 8290: ldr x5, [%[params], #0] *)
  Ldr 4 6 params (Imm 32); (* 8291: ldr w6, [%[params], #32] *)
  Ldr 4 7 params (Imm 40); (* 8292: ldr w7, [%[params], #40] *)
  Cmp W row (Reg 7); (* 8298: cmp %w[row], w7 *)
  B EQ (Fwd 20); (* 8299: beq 20f *)
  Alu AAdd false W row row (Imm 8); (* 8301: add %w[row], %w[row], #8 *)
  B Always (Fwd 21); (* 8302: b 21f *)
  Label 20; (* 8303: 20: *)
  Mov W row (Reg 6); (* 8305: mov %w[row], w6 *)
  Alu AAdd false W col col (Imm 8); (* 8306: add %w[col], %w[col], #8 *)
  Alu AAdd false X dst_col_ptr dst_col_ptr (Lsl 11 3); (* 8307: add %[dst_col_ptr], %[dst_col_ptr], x11, lsl #3 *)
  Mov X dst_ptr (Reg dst_col_ptr); (* 8308: mov %[dst_ptr], %[dst_col_ptr] *)
  Label 21; (* 8309: 21: *)
  Cmp W col (Reg 8); (* 8312: cmp %w[col], w8 *)
  Mov W 1 (Imm 1); (* 8317: mov w1, #1 *)
  B LE (Back 1) (* 8319: ble 1b *)
].

(** kernel_arm64.cc:8385-8785, KernelFloatNeonX1. *)
Definition kernelf_x1 : list instr := [
  Ldr 8 5 params (Imm 0); (* 8385: ldr x5, [%[params], #0] *)
  Ldr 4 6 params (Imm 32); (* 8386: ldr w6, [%[params], #32] *)
  Ldr 4 7 params (Imm 40); (* 8387: ldr w7, [%[params], #40] *)
  Ldr 4 8 params (Imm 44); (* 8388: ldr w8, [%[params], #44] *)
  Ldr 4 9 params (Imm 56); (* 8389: ldr w9, [%[params], #56] *)
  Ldr 4 10 params (Imm 60); (* 8390: ldr w10, [%[params], #60] *)
  Ldr 4 11 params (Imm 64); (* 8391: ldr w11, [%[params], #64] *)
  Ldr 4 12 params (Imm 68); (* 8392: ldr w12, [%[params], #68] *)
  Ld1 16 0 lhs_ptr (Imm 16); (* 8395: ld1 {v0.4s}, [%[lhs_ptr]], #16 *)
  Ld1 16 1 lhs_ptr (Imm 16); (* 8396: ld1 {v1.4s}, [%[lhs_ptr]], #16 *)
  Ld1 16 2 rhs_ptr (Imm 16); (* 8397: ld1 {v2.4s}, [%[rhs_ptr]], #16 *)
  Ld1 16 3 rhs_ptr (Imm 16); (* 8398: ld1 {v3.4s}, [%[rhs_ptr]], #16 *)
  Movi 16 0; (* 8401: movi v16.4s, #0 *)
  Movi 17 0; (* 8402: movi v17.4s, #0 *)
  Movi 18 0; (* 8403: movi v18.4s, #0 *)
  Movi 19 0; (* 8404: movi v19.4s, #0 *)
  Movi 20 0; (* 8405: movi v20.4s, #0 *)
  Movi 21 0; (* 8406: movi v21.4s, #0 *)
  Movi 22 0; (* 8407: movi v22.4s, #0 *)
  Movi 23 0; (* 8408: movi v23.4s, #0 *)
  Movi 24 0; (* 8409: movi v24.4s, #0 *)
  Movi 25 0; (* 8410: movi v25.4s, #0 *)
  Movi 26 0; (* 8411: movi v26.4s, #0 *)
  Movi 27 0; (* 8412: movi v27.4s, #0 *)
  Movi 28 0; (* 8413: movi v28.4s, #0 *)
  Movi 29 0; (* 8414: movi v29.4s, #0 *)
  Movi 30 0; (* 8415: movi v30.4s, #0 *)
  Movi 31 0; (* 8416: movi v31.4s, #0 *)
  Mov W 1 (Imm 1); (* 8421: mov w1, #1 *)
  Label 1; (* 8425: 1: *)
  Fmla 16 0 2 0; (* 8427: fmla v16.4s, v0.4s, v2.s[0] *)
  Fmla 18 0 2 1; (* 8428: fmla v18.4s, v0.4s, v2.s[1] *)
  Fmla 20 0 2 2; (* 8429: fmla v20.4s, v0.4s, v2.s[2] *)
  Fmla 22 0 2 3; (* 8430: fmla v22.4s, v0.4s, v2.s[3] *)
  Cmp W 1 (Reg 12); (* 8433: cmp w1, w12 *)
  B EQ (Fwd 79); (* 8434: beq 79f *)
  Label 2; (* 8436: 2: *)
  Fmla 24 0 3 0; (* 8437: fmla v24.4s, v0.4s, v3.s[0] *)
  Fmla 26 0 3 1; (* 8438: fmla v26.4s, v0.4s, v3.s[1] *)
  Ld1 16 4 rhs_ptr (Imm 16); (* 8439: ld1 {v4.4s}, [%[rhs_ptr]], #16 *)
  Fmla 28 0 3 2; (* 8440: fmla v28.4s, v0.4s, v3.s[2] *)
  Fmla 30 0 3 3; (* 8441: fmla v30.4s, v0.4s, v3.s[3] *)
  Ld1 16 0 lhs_ptr (Imm 16); (* 8442: ld1 {v0.4s}, [%[lhs_ptr]], #16 *)
  Fmla 25 1 3 0; (* 8443: fmla v25.4s, v1.4s, v3.s[0] *)
  Fmla 27 1 3 1; (* 8444: fmla v27.4s, v1.4s, v3.s[1] *)
  Alu AAdd false W 1 1 (Imm 1); (* 8445: add w1, w1, #1 *)
  Fmla 29 1 3 2; (* 8446: fmla v29.4s, v1.4s, v3.s[2] *)
  Fmla 31 1 3 3; (* 8447: fmla v31.4s, v1.4s, v3.s[3] *)
  Ld1 16 3 rhs_ptr (Imm 16); (* 8448: ld1 {v3.4s}, [%[rhs_ptr]], #16 *)
  Fmla 17 1 2 0; (* 8449: fmla v17.4s, v1.4s, v2.s[0] *)
  Fmla 19 1 2 1; (* 8450: fmla v19.4s, v1.4s, v2.s[1] *)
  Cmp W 1 (Reg 12); (* 8451: cmp w1, w12 *)
  Fmla 21 1 2 2; (* 8452: fmla v21.4s, v1.4s, v2.s[2] *)
  Fmla 23 1 2 3; (* 8453: fmla v23.4s, v1.4s, v2.s[3] *)
  Ld1 16 1 lhs_ptr (Imm 16); (* 8454: ld1 {v1.4s}, [%[lhs_ptr]], #16 *)
  Fmla 16 0 4 0; (* 8455: fmla v16.4s, v0.4s, v4.s[0] *)
  Fmla 18 0 4 1; (* 8456: fmla v18.4s, v0.4s, v4.s[1] *)
  VMov 2 4; (* 8457: mov v2.16b, v4.16b *)
  Fmla 20 0 4 2; (* 8458: fmla v20.4s, v0.4s, v4.s[2] *)
  Fmla 22 0 4 3; (* 8459: fmla v22.4s, v0.4s, v4.s[3] *)
  B LT (Back 2); (* 8460: blt 2b *)
  Label 79; (* 8462: 79: *)
  Fmla 24 0 3 0; (* 8468: fmla v24.4s, v0.4s, v3.s[0] *)
  Fmla 26 0 3 1; (* 8469: fmla v26.4s, v0.4s, v3.s[1] *)
  Fmla 28 0 3 2; (* 8470: fmla v28.4s, v0.4s, v3.s[2] *)
  Fmla 30 0 3 3; (* 8471: fmla v30.4s, v0.4s, v3.s[3] *)
  Fmla 25 1 3 0; (* 8472: fmla v25.4s, v1.4s, v3.s[0] *)
  Fmla 27 1 3 1; (* 8473: fmla v27.4s, v1.4s, v3.s[1] *)
  Fmla 29 1 3 2; (* 8474: fmla v29.4s, v1.4s, v3.s[2] *)
  Fmla 31 1 3 3; (* 8475: fmla v31.4s, v1.4s, v3.s[3] *)
  Fmla 17 1 2 0; (* 8476: fmla v17.4s, v1.4s, v2.s[0] *)
  Fmla 19 1 2 1; (* 8477: fmla v19.4s, v1.4s, v2.s[1] *)
  Fmla 21 1 2 2; (* 8478: fmla v21.4s, v1.4s, v2.s[2] *)
  Fmla 23 1 2 3; (* 8479: fmla v23.4s, v1.4s, v2.s[3] *)
  Cmp W row (Reg 7); (* 8497: cmp %w[row], w7 *)
  B GE (Fwd 4); (* 8498: bge 4f *)
  Alu AAdd false X lhs_col_ptr lhs_col_ptr (Lsl 9 3); (* 8500: add %[lhs_col_ptr], %[lhs_col_ptr], x9, lsl #3 *)
  B Always (Fwd 5); (* 8501: b 5f *)
  Label 4; (* 8502: 4: *)
  Mov X lhs_col_ptr (Reg 5); (* 8503: mov %[lhs_col_ptr], x5 *)
  Cmp W col (Reg 8); (* 8511: cmp %w[col], w8 *)
  B GE (Fwd 5); (* 8512: bge 5f *)
  Alu AAdd false X rhs_col_ptr rhs_col_ptr (Lsl 10 3); (* 8514: add %[rhs_col_ptr], %[rhs_col_ptr], x10, lsl #3 *)
  Label 5; (* 8515: 5: *)
  Mov X lhs_ptr (Reg lhs_col_ptr); (* 8519: mov %[lhs_ptr], %[lhs_col_ptr] *)
  Mov X rhs_ptr (Reg rhs_col_ptr); (* 8520: mov %[rhs_ptr], %[rhs_col_ptr] *)
  Ldr 1 4 params (Imm 80); (* 8523: ldrb w4, [%[params], #80] *)
  Ldr 8 1 params (Imm 24); (* 8524: ldr x1, [%[params], #24] *)
  Tst W 4 (Imm 32); (* 8527: tst w4, #0x20 *)
  Csel W 3 row col EQ; (* 8528: csel w3, %w[row], %w[col], eq *)
  Alu AAdd false X 5 1 (Lsl 3 2); (* 8531: add x5, x1, x3, lsl #2 *)
  Tst W 4 (Imm 1); (* 8535: tst w4, #0x1 *)
  Csel X 1 1 5 EQ; (* 8536: csel x1, x1, x5, eq *)
  Ld1 16 14 1 (Imm 16); (* 8539: ld1 {v14.4s}, [x1], #16 *)
  Ld1 16 15 1 (Imm 0); (* 8540: ld1 {v15.4s}, [x1] *)
  Ld1 16 0 lhs_ptr (Imm 16); (* 8546: ld1 {v0.4s}, [%[lhs_ptr]], #16 *)
  Ld1 16 1 lhs_ptr (Imm 16); (* 8547: ld1 {v1.4s}, [%[lhs_ptr]], #16 *)
  Ld1 16 2 rhs_ptr (Imm 16); (* 8548: ld1 {v2.4s}, [%[rhs_ptr]], #16 *)
  Ld1 16 3 rhs_ptr (Imm 16); (* 8549: ld1 {v3.4s}, [%[rhs_ptr]], #16 *)
  Tst W 4 (Imm 32); (* 8553: tst w4, #0x20 *)
  B NE (Fwd 6); (* 8554: bne 6f *)
  V2 Fadd 16 16 14; (* 8556: fadd v16.4s, v16.4s, v14.4s *)
  V2 Fadd 17 17 15; (* 8557: fadd v17.4s, v17.4s, v15.4s *)
  V2 Fadd 18 18 14; (* 8558: fadd v18.4s, v18.4s, v14.4s *)
  V2 Fadd 19 19 15; (* 8559: fadd v19.4s, v19.4s, v15.4s *)
  V2 Fadd 20 20 14; (* 8560: fadd v20.4s, v20.4s, v14.4s *)
  V2 Fadd 21 21 15; (* 8561: fadd v21.4s, v21.4s, v15.4s *)
  V2 Fadd 22 22 14; (* 8562: fadd v22.4s, v22.4s, v14.4s *)
  V2 Fadd 23 23 15; (* 8563: fadd v23.4s, v23.4s, v15.4s *)
  V2 Fadd 24 24 14; (* 8564: fadd v24.4s, v24.4s, v14.4s *)
  V2 Fadd 25 25 15; (* 8565: fadd v25.4s, v25.4s, v15.4s *)
  V2 Fadd 26 26 14; (* 8566: fadd v26.4s, v26.4s, v14.4s *)
  V2 Fadd 27 27 15; (* 8567: fadd v27.4s, v27.4s, v15.4s *)
  V2 Fadd 28 28 14; (* 8568: fadd v28.4s, v28.4s, v14.4s *)
  V2 Fadd 29 29 15; (* 8569: fadd v29.4s, v29.4s, v15.4s *)
  V2 Fadd 30 30 14; (* 8570: fadd v30.4s, v30.4s, v14.4s *)
  V2 Fadd 31 31 15; (* 8571: fadd v31.4s, v31.4s, v15.4s *)
  B Always (Fwd 7); (* 8572: b 7f *)
  Label 6; (* 8574: 6: *)
  DupLane 4 4 8 14 0; (* 8576: dup v8.4s, v14.s[0] *)
  DupLane 4 4 9 14 1; (* 8577: dup v9.4s, v14.s[1] *)
  DupLane 4 4 10 14 2; (* 8578: dup v10.4s, v14.s[2] *)
  DupLane 4 4 11 14 3; (* 8579: dup v11.4s, v14.s[3] *)
  DupLane 4 4 12 15 0; (* 8580: dup v12.4s, v15.s[0] *)
  DupLane 4 4 13 15 1; (* 8581: dup v13.4s, v15.s[1] *)
  DupLane 4 4 14 15 2; (* 8582: dup v14.4s, v15.s[2] *)
  DupLane 4 4 15 15 3; (* 8583: dup v15.4s, v15.s[3] *)
  V2 Fadd 16 16 8; (* 8584: fadd v16.4s, v16.4s, v8.4s *)
  V2 Fadd 17 17 8; (* 8585: fadd v17.4s, v17.4s, v8.4s *)
  V2 Fadd 18 18 9; (* 8586: fadd v18.4s, v18.4s, v9.4s *)
  V2 Fadd 19 19 9; (* 8587: fadd v19.4s, v19.4s, v9.4s *)
  V2 Fadd 20 20 10; (* 8588: fadd v20.4s, v20.4s, v10.4s *)
  V2 Fadd 21 21 10; (* 8589: fadd v21.4s, v21.4s, v10.4s *)
  V2 Fadd 22 22 11; (* 8590: fadd v22.4s, v22.4s, v11.4s *)
  V2 Fadd 23 23 11; (* 8591: fadd v23.4s, v23.4s, v11.4s *)
  V2 Fadd 24 24 12; (* 8592: fadd v24.4s, v24.4s, v12.4s *)
  V2 Fadd 25 25 12; (* 8593: fadd v25.4s, v25.4s, v12.4s *)
  V2 Fadd 26 26 13; (* 8594: fadd v26.4s, v26.4s, v13.4s *)
  V2 Fadd 27 27 13; (* 8595: fadd v27.4s, v27.4s, v13.4s *)
  V2 Fadd 28 28 14; (* 8596: fadd v28.4s, v28.4s, v14.4s *)
  V2 Fadd 29 29 14; (* 8597: fadd v29.4s, v29.4s, v14.4s *)
  V2 Fadd 30 30 15; (* 8598: fadd v30.4s, v30.4s, v15.4s *)
  V2 Fadd 31 31 15; (* 8599: fadd v31.4s, v31.4s, v15.4s *)
  Label 7; (* 8600: 7: *)
  Ldr 4 2 params (Imm 72); (* 8603: ldr w2, [%[params], #72] *)
  Ldr 4 3 params (Imm 76); (* 8604: ldr w3, [%[params], #76] *)
  Dup 4 4 14 2; (* 8605: dup v14.4s, w2 *)
  Dup 4 4 15 3; (* 8606: dup v15.4s, w3 *)
  V2 Fmax 16 16 14; (* 8609: fmax v16.4s, v16.4s, v14.4s *)
  V2 Fmax 17 17 14; (* 8610: fmax v17.4s, v17.4s, v14.4s *)
  V2 Fmax 18 18 14; (* 8611: fmax v18.4s, v18.4s, v14.4s *)
  V2 Fmax 19 19 14; (* 8612: fmax v19.4s, v19.4s, v14.4s *)
  V2 Fmax 20 20 14; (* 8613: fmax v20.4s, v20.4s, v14.4s *)
  V2 Fmax 21 21 14; (* 8614: fmax v21.4s, v21.4s, v14.4s *)
  V2 Fmax 22 22 14; (* 8615: fmax v22.4s, v22.4s, v14.4s *)
  V2 Fmax 23 23 14; (* 8616: fmax v23.4s, v23.4s, v14.4s *)
  V2 Fmax 24 24 14; (* 8617: fmax v24.4s, v24.4s, v14.4s *)
  V2 Fmax 25 25 14; (* 8618: fmax v25.4s, v25.4s, v14.4s *)
  V2 Fmax 26 26 14; (* 8619: fmax v26.4s, v26.4s, v14.4s *)
  V2 Fmax 27 27 14; (* 8620: fmax v27.4s, v27.4s, v14.4s *)
  V2 Fmax 28 28 14; (* 8621: fmax v28.4s, v28.4s, v14.4s *)
  V2 Fmax 29 29 14; (* 8622: fmax v29.4s, v29.4s, v14.4s *)
  V2 Fmax 30 30 14; (* 8623: fmax v30.4s, v30.4s, v14.4s *)
  V2 Fmax 31 31 14; (* 8624: fmax v31.4s, v31.4s, v14.4s *)
  V2 Fmin 16 16 15; (* 8627: fmin v16.4s, v16.4s, v15.4s *)
  V2 Fmin 17 17 15; (* 8628: fmin v17.4s, v17.4s, v15.4s *)
  V2 Fmin 18 18 15; (* 8629: fmin v18.4s, v18.4s, v15.4s *)
  V2 Fmin 19 19 15; (* 8630: fmin v19.4s, v19.4s, v15.4s *)
  V2 Fmin 20 20 15; (* 8631: fmin v20.4s, v20.4s, v15.4s *)
  V2 Fmin 21 21 15; (* 8632: fmin v21.4s, v21.4s, v15.4s *)
  V2 Fmin 22 22 15; (* 8633: fmin v22.4s, v22.4s, v15.4s *)
  V2 Fmin 23 23 15; (* 8634: fmin v23.4s, v23.4s, v15.4s *)
  V2 Fmin 24 24 15; (* 8635: fmin v24.4s, v24.4s, v15.4s *)
  V2 Fmin 25 25 15; (* 8636: fmin v25.4s, v25.4s, v15.4s *)
  V2 Fmin 26 26 15; (* 8637: fmin v26.4s, v26.4s, v15.4s *)
  V2 Fmin 27 27 15; (* 8638: fmin v27.4s, v27.4s, v15.4s *)
  V2 Fmin 28 28 15; (* 8639: fmin v28.4s, v28.4s, v15.4s *)
  V2 Fmin 29 29 15; (* 8640: fmin v29.4s, v29.4s, v15.4s *)
  V2 Fmin 30 30 15; (* 8641: fmin v30.4s, v30.4s, v15.4s *)
  V2 Fmin 31 31 15; (* 8642: fmin v31.4s, v31.4s, v15.4s *)
  Alu ASub false W 1 dst_rows (Reg row); (* 8649: sub w1, %w[dst_rows], %w[row] *)
  Alu ASub false W 2 dst_cols (Reg col); (* 8650: sub w2, %w[dst_cols], %w[col] *)
  Mov W 3 (Imm 8); (* 8651: mov w3, #8 *)
  Cmp W 1 (Imm 8); (* 8652: cmp w1, #8 *)
  Csel W 1 1 3 LE; (* 8654: csel w1, w1, w3, le *)
  Cmp W 2 (Imm 8); (* 8655: cmp w2, #8 *)
  Csel W 2 2 3 LE; (* 8657: csel w2, w2, w3, le *)
  Cmp W 1 (Reg 3); (* 8660: cmp w1, w3 *)
  Ccmp W 2 (Reg 3) EQ; (* 8661: ccmp w2, w3, 0, eq *)
  B EQ (Fwd 30); (* 8663: beq 30f *)
  Mov X 3 (Reg dst_tmp_buf); (* 8666: mov x3, %[dst_tmp_buf] *)
  Mov X 4 (Imm 32); (* 8667: mov x4, #32 *)
  B Always (Fwd 31); (* 8668: b 31f *)
  Label 30; (* 8669: 30: *)
  Mov X 3 (Reg dst_ptr); (* 8672: mov x3, %[dst_ptr] *)
  Mov X 4 (Reg 11); (* 8673: mov x4, x11 *)
  Label 31; (* 8674: 31: *)
  Nop; (* 8678: prfm pstl1strm, [x3] *)
  StrQ 16 3 (Imm 0); (* 8679: str q16, [x3, #0] *)
  StrQ 17 3 (Imm 16); (* 8680: str q17, [x3, #16] *)
  Alu AAdd false X 3 3 (Reg 4); (* 8681: add x3, x3, x4 *)
  Nop; (* 8682: prfm pstl1strm, [x3] *)
  Movi 16 0; (* 8683: movi v16.4s, #0 *)
  Movi 17 0; (* 8684: movi v17.4s, #0 *)
  StrQ 18 3 (Imm 0); (* 8685: str q18, [x3, #0] *)
  StrQ 19 3 (Imm 16); (* 8686: str q19, [x3, #16] *)
  Alu AAdd false X 3 3 (Reg 4); (* 8687: add x3, x3, x4 *)
  Nop; (* 8688: prfm pstl1strm, [x3] *)
  Movi 18 0; (* 8689: movi v18.4s, #0 *)
  Movi 19 0; (* 8690: movi v19.4s, #0 *)
  StrQ 20 3 (Imm 0); (* 8691: str q20, [x3, #0] *)
  StrQ 21 3 (Imm 16); (* 8692: str q21, [x3, #16] *)
  Alu AAdd false X 3 3 (Reg 4); (* 8693: add x3, x3, x4 *)
  Nop; (* 8694: prfm pstl1strm, [x3] *)
  Movi 20 0; (* 8695: movi v20.4s, #0 *)
  Movi 21 0; (* 8696: movi v21.4s, #0 *)
  StrQ 22 3 (Imm 0); (* 8697: str q22, [x3, #0] *)
  StrQ 23 3 (Imm 16); (* 8698: str q23, [x3, #16] *)
  Alu AAdd false X 3 3 (Reg 4); (* 8699: add x3, x3, x4 *)
  Nop; (* 8700: prfm pstl1strm, [x3] *)
  Movi 22 0; (* 8701: movi v22.4s, #0 *)
  Movi 23 0; (* 8702: movi v23.4s, #0 *)
  StrQ 24 3 (Imm 0); (* 8703: str q24, [x3, #0] *)
  StrQ 25 3 (Imm 16); (* 8704: str q25, [x3, #16] *)
  Alu AAdd false X 3 3 (Reg 4); (* 8705: add x3, x3, x4 *)
  Nop; (* 8706: prfm pstl1strm, [x3] *)
  Movi 24 0; (* 8707: movi v24.4s, #0 *)
  Movi 25 0; (* 8708: movi v25.4s, #0 *)
  StrQ 26 3 (Imm 0); (* 8709: str q26, [x3, #0] *)
  StrQ 27 3 (Imm 16); (* 8710: str q27, [x3, #16] *)
  Alu AAdd false X 3 3 (Reg 4); (* 8711: add x3, x3, x4 *)
  Nop; (* 8712: prfm pstl1strm, [x3] *)
  Movi 26 0; (* 8713: movi v26.4s, #0 *)
  Movi 27 0; (* 8714: movi v27.4s, #0 *)
  StrQ 28 3 (Imm 0); (* 8715: str q28, [x3, #0] *)
  StrQ 29 3 (Imm 16); (* 8716: str q29, [x3, #16] *)
  Alu AAdd false X 3 3 (Reg 4); (* 8717: add x3, x3, x4 *)
  Nop; (* 8718: prfm pstl1strm, [x3] *)
  Movi 28 0; (* 8719: movi v28.4s, #0 *)
  Movi 29 0; (* 8720: movi v29.4s, #0 *)
  StrQ 30 3 (Imm 0); (* 8721: str q30, [x3, #0] *)
  StrQ 31 3 (Imm 16); (* 8722: str q31, [x3, #16] *)
  Movi 30 0; (* 8723: movi v30.4s, #0 *)
  Movi 31 0; (* 8724: movi v31.4s, #0 *)
  B EQ (Fwd 41); (* 8728: beq 41f *)
  Mov X 3 (Reg dst_tmp_buf); (* 8732: mov x3, %[dst_tmp_buf] *)
  Mov X 4 (Reg dst_ptr); (* 8733: mov x4, %[dst_ptr] *)
  Mov W 6 (Imm 0); (* 8734: mov w6, #0 *)
  Label 50; (* 8735: 50: *)
  Nop; (* 8736: prfm pstl1strm, [x4] *)
  Mov W 5 (Imm 0); (* 8737: mov w5, #0 *)
  Label 51; (* 8738: 51: *)
  Ldr 4 7 3 (Lsl 5 2); (* 8739: ldr w7, [x3, x5, lsl #2] *)
  Str 4 7 4 (Lsl 5 2); (* 8740: str w7, [x4, x5, lsl #2] *)
  Alu AAdd false W 5 5 (Imm 1); (* 8741: add w5, w5, #1 *)
  Cmp W 5 (Reg 1); (* 8742: cmp w5, w1 *)
  B LT (Back 51); (* 8743: blt 51b *)
  Alu AAdd false W 6 6 (Imm 1); (* 8744: add w6, w6, #1 *)
  Alu AAdd false X 3 3 (Imm 32); (* 8745: add x3, x3, #32 *)
  Alu AAdd false X 4 4 (Reg 11); (* 8746: add x4, x4, x11 *)
  Cmp W 6 (Reg 2); (* 8747: cmp w6, w2 *)
  B LT (Back 50); (* 8748: blt 50b *)
  Label 41; (* 8749: 41: *)
  Alu AAdd false X dst_ptr dst_ptr (Imm 32); (* 8750: add %[dst_ptr], %[dst_ptr], #32 *)
  Ldr 8 5 params (Imm 0); (* 8756: ldr x5, [%[params], #0] *)
  Ldr 4 6 params (Imm 32); (* 8757: ldr w6, [%[params], #32] *)
  Ldr 4 7 params (Imm 40); (* 8758: ldr w7, [%[params], #40] *)
  Cmp W row (Reg 7); (* 8764: cmp %w[row], w7 *)
  B EQ (Fwd 20); (* 8765: beq 20f *)
  Alu AAdd false W row row (Imm 8); (* 8767: add %w[row], %w[row], #8 *)
  B Always (Fwd 21); (* 8768: b 21f *)
  Label 20; (* 8769: 20: *)
  Mov W row (Reg 6); (* 8771: mov %w[row], w6 *)
  Alu AAdd false W col col (Imm 8); (* 8772: add %w[col], %w[col], #8 *)
  Alu AAdd false X dst_col_ptr dst_col_ptr (Lsl 11 3); (* 8773: add %[dst_col_ptr], %[dst_col_ptr], x11, lsl #3 *)
  Mov X dst_ptr (Reg dst_col_ptr); (* 8774: mov %[dst_ptr], %[dst_col_ptr] *)
  Label 21; (* 8775: 21: *)
  Cmp W col (Reg 8); (* 8778: cmp %w[col], w8 *)
  Mov W 1 (Imm 1); (* 8783: mov w1, #1 *)
  B LE (Back 1) (* 8785: ble 1b *)
].

(** kernel_arm64.cc:8858-9278, KernelFloatNeonA55ish. *)
Definition kernelf_a55 : list instr := [
  Ldr 8 5 params (Imm 0); (* 8858: ldr x5, [%[params], #0] *)
  Ldr 4 6 params (Imm 32); (* 8859: ldr w6, [%[params], #32] *)
  Ldr 4 7 params (Imm 40); (* 8860: ldr w7, [%[params], #40] *)
  Ldr 4 8 params (Imm 44); (* 8861: ldr w8, [%[params], #44] *)
  Ldr 4 9 params (Imm 56); (* 8862: ldr w9, [%[params], #56] *)
  Ldr 4 10 params (Imm 60); (* 8863: ldr w10, [%[params], #60] *)
  Ldr 4 11 params (Imm 64); (* 8864: ldr w11, [%[params], #64] *)
  Ldr 4 12 params (Imm 68); (* 8865: ldr w12, [%[params], #68] *)
  Movi 16 0; (* 8869: movi v16.4s, #0 *)
  Ld1 16 0 lhs_ptr (Imm 16); (* 8871: ld1 {v0.4s}, [%[lhs_ptr]], #16 *)
  Movi 17 0; (* 8872: movi v17.4s, #0 *)
  Ld1 16 1 lhs_ptr (Imm 16); (* 8873: ld1 {v1.4s}, [%[lhs_ptr]], #16 *)
  Movi 18 0; (* 8874: movi v18.4s, #0 *)
  Ld1 16 2 rhs_ptr (Imm 16); (* 8875: ld1 {v2.4s}, [%[rhs_ptr]], #16 *)
  Movi 19 0; (* 8876: movi v19.4s, #0 *)
  Ld1 16 3 rhs_ptr (Imm 16); (* 8877: ld1 {v3.4s}, [%[rhs_ptr]], #16 *)
  Movi 20 0; (* 8878: movi v20.4s, #0 *)
  Nop; (* 8879: prfm pldl1keep, [%[lhs_ptr], #64] *)
  Movi 21 0; (* 8880: movi v21.4s, #0 *)
  Nop; (* 8881: prfm pldl1keep, [%[rhs_ptr], #64] *)
  Movi 22 0; (* 8882: movi v22.4s, #0 *)
  Nop; (* 8883: prfm pldl1keep, [%[lhs_ptr], #128] *)
  Movi 23 0; (* 8884: movi v23.4s, #0 *)
  Nop; (* 8885: prfm pldl1keep, [%[rhs_ptr], #128] *)
  Movi 24 0; (* 8886: movi v24.4s, #0 *)
  Nop; (* 8887: prfm pldl1keep, [%[lhs_ptr], #192] *)
  Movi 25 0; (* 8888: movi v25.4s, #0 *)
  Nop; (* 8889: prfm pldl1keep, [%[rhs_ptr], #192] *)
  Movi 26 0; (* 8890: movi v26.4s, #0 *)
  Nop; (* 8891: prfm pldl1keep, [%[lhs_ptr], #256] *)
  Movi 27 0; (* 8892: movi v27.4s, #0 *)
  Nop; (* 8893: prfm pldl1keep, [%[rhs_ptr], #256] *)
  Movi 28 0; (* 8894: movi v28.4s, #0 *)
  Movi 29 0; (* 8895: movi v29.4s, #0 *)
  Movi 30 0; (* 8896: movi v30.4s, #0 *)
  Movi 31 0; (* 8897: movi v31.4s, #0 *)
  Alu ASub false W 1 12 (Imm 1); (* 8902: sub w1, w12, #1 *)
  Label 1; (* 8906: 1: *)
  Cmp W 1 (Imm 0); (* 8908: cmp w1, #0 *)
  Fmla 16 0 2 0; (* 8909: fmla v16.4s, v0.4s, v2.s[0] *)
  Fmla 18 0 2 1; (* 8910: fmla v18.4s, v0.4s, v2.s[1] *)
  Fmla 20 0 2 2; (* 8911: fmla v20.4s, v0.4s, v2.s[2] *)
  Fmla 22 0 2 3; (* 8912: fmla v22.4s, v0.4s, v2.s[3] *)
  B EQ (Fwd 79); (* 8915: beq 79f *)
  Label 2; (* 8917: 2: *)
  Fmla 24 0 3 0; (* 8919: fmla v24.4s, v0.4s, v3.s[0] *)
  Ldr 8 2 lhs_ptr (Imm 8); (* 8920: ldr x2, [%[lhs_ptr], #8] *)
  Fmla 26 0 3 1; (* 8921: fmla v26.4s, v0.4s, v3.s[1] *)
  Ldr 8 3 lhs_ptr (Imm 24); (* 8922: ldr x3, [%[lhs_ptr], #24] *)
  Fmla 28 0 3 2; (* 8923: fmla v28.4s, v0.4s, v3.s[2] *)
  Ldr 8 5 rhs_ptr (Imm 24); (* 8924: ldr x5, [%[rhs_ptr], #24] *)
  Fmla 30 0 3 3; (* 8925: fmla v30.4s, v0.4s, v3.s[3] *)
  Ldr 8 4 rhs_ptr (Imm 8); (* 8926: ldr x4, [%[rhs_ptr], #8] *)
  Fmla 25 1 3 0; (* 8927: fmla v25.4s, v1.4s, v3.s[0] *)
  Alu ASub true W 1 1 (Imm 1); (* 8928: subs w1, w1, #1 *)
  Ld1 8 0 lhs_ptr (Imm 32); (* 8929: ldr d0, [%[lhs_ptr]], #32 *)
  Fmla 27 1 3 1; (* 8930: fmla v27.4s, v1.4s, v3.s[1] *)
  Fmla 29 1 3 2; (* 8931: fmla v29.4s, v1.4s, v3.s[2] *)
  Fmla 31 1 3 3; (* 8932: fmla v31.4s, v1.4s, v3.s[3] *)
  Ins 8 0 1 2; (* 8933: ins v0.d[1], x2 *)
  LdrD 3 rhs_ptr (Imm 16); (* 8934: ldr d3, [%[rhs_ptr], #16] *)
  Fmla 17 1 2 0; (* 8935: fmla v17.4s, v1.4s, v2.s[0] *)
  Fmla 19 1 2 1; (* 8936: fmla v19.4s, v1.4s, v2.s[1] *)
  Ins 8 3 1 5; (* 8937: ins v3.d[1], x5 *)
  Ld1 8 4 rhs_ptr (Imm 32); (* 8938: ldr d4, [%[rhs_ptr]], #32 *)
  Fmla 21 1 2 2; (* 8939: fmla v21.4s, v1.4s, v2.s[2] *)
  Fmla 23 1 2 3; (* 8940: fmla v23.4s, v1.4s, v2.s[3] *)
  Fmla 16 0 4 0; (* 8941: fmla v16.4s, v0.4s, v4.s[0] *)
  Ins 8 4 1 4; (* 8942: ins v4.d[1], x4 *)
  LdrD 1 lhs_ptr (Imm (-16)); (* 8943: ldr d1, [%[lhs_ptr], #-16] *)
  Fmla 18 0 4 1; (* 8944: fmla v18.4s, v0.4s, v4.s[1] *)
  Fmla 20 0 4 2; (* 8945: fmla v20.4s, v0.4s, v4.s[2] *)
  Ins 8 1 1 3; (* 8946: ins v1.d[1], x3 *)
  Nop; (* 8947: prfm pldl1keep, [%[lhs_ptr], #256] *)
  VMov 2 4; (* 8948: mov v2.16b, v4.16b *)
  Nop; (* 8949: prfm pldl1keep, [%[rhs_ptr], #256] *)
  Fmla 22 0 4 3; (* 8950: fmla v22.4s, v0.4s, v4.s[3] *)
  B NE (Back 2); (* 8951: bne 2b *)
  Label 79; (* 8953: 79: *)
  Fmla 24 0 3 0; (* 8959: fmla v24.4s, v0.4s, v3.s[0] *)
  Fmla 26 0 3 1; (* 8960: fmla v26.4s, v0.4s, v3.s[1] *)
  Fmla 28 0 3 2; (* 8961: fmla v28.4s, v0.4s, v3.s[2] *)
  Fmla 30 0 3 3; (* 8962: fmla v30.4s, v0.4s, v3.s[3] *)
  Fmla 25 1 3 0; (* 8963: fmla v25.4s, v1.4s, v3.s[0] *)
  Fmla 27 1 3 1; (* 8964: fmla v27.4s, v1.4s, v3.s[1] *)
  Fmla 29 1 3 2; (* 8965: fmla v29.4s, v1.4s, v3.s[2] *)
  Fmla 31 1 3 3; (* 8966: fmla v31.4s, v1.4s, v3.s[3] *)
  Ldr 8 5 params (Imm 0); (* 8967: ldr x5, [%[params], #0] *)
  Fmla 17 1 2 0; (* 8968: fmla v17.4s, v1.4s, v2.s[0] *)
  Fmla 19 1 2 1; (* 8969: fmla v19.4s, v1.4s, v2.s[1] *)
  Fmla 21 1 2 2; (* 8970: fmla v21.4s, v1.4s, v2.s[2] *)
  Fmla 23 1 2 3; (* 8971: fmla v23.4s, v1.4s, v2.s[3] *)
  Cmp W row (Reg 7); (* 8989: cmp %w[row], w7 *)
  B GE (Fwd 4); (* 8990: bge 4f *)
  Alu AAdd false X lhs_col_ptr lhs_col_ptr (Lsl 9 3); (* 8992: add %[lhs_col_ptr], %[lhs_col_ptr], x9, lsl #3 *)
  B Always (Fwd 5); (* 8993: b 5f *)
  Label 4; (* 8994: 4: *)
  Mov X lhs_col_ptr (Reg 5); (* 8995: mov %[lhs_col_ptr], x5 *)
  Cmp W col (Reg 8); (* 9003: cmp %w[col], w8 *)
  B GE (Fwd 5); (* 9004: bge 5f *)
  Alu AAdd false X rhs_col_ptr rhs_col_ptr (Lsl 10 3); (* 9006: add %[rhs_col_ptr], %[rhs_col_ptr], x10, lsl #3 *)
  Label 5; (* 9007: 5: *)
  Mov X lhs_ptr (Reg lhs_col_ptr); (* 9011: mov %[lhs_ptr], %[lhs_col_ptr] *)
  Mov X rhs_ptr (Reg rhs_col_ptr); (* 9012: mov %[rhs_ptr], %[rhs_col_ptr] *)
  Ldr 1 4 params (Imm 80); (* 9015: ldrb w4, [%[params], #80] *)
  Ldr 8 1 params (Imm 24); (* 9016: ldr x1, [%[params], #24] *)
  Tst W 4 (Imm 32); (* 9019: tst w4, #0x20 *)
  Csel W 3 row col EQ; (* 9020: csel w3, %w[row], %w[col], eq *)
  Alu AAdd false X 5 1 (Lsl 3 2); (* 9023: add x5, x1, x3, lsl #2 *)
  Tst W 4 (Imm 1); (* 9028: tst w4, #0x1 *)
  Csel X 1 1 5 EQ; (* 9029: csel x1, x1, x5, eq *)
  Ld1 16 14 1 (Imm 16); (* 9032: ld1 {v14.4s}, [x1], #16 *)
  Ld1 16 15 1 (Imm 0); (* 9033: ld1 {v15.4s}, [x1] *)
  Ld1 16 0 lhs_ptr (Imm 16); (* 9039: ld1 {v0.4s}, [%[lhs_ptr]], #16 *)
  Ld1 16 1 lhs_ptr (Imm 16); (* 9040: ld1 {v1.4s}, [%[lhs_ptr]], #16 *)
  Ld1 16 2 rhs_ptr (Imm 16); (* 9041: ld1 {v2.4s}, [%[rhs_ptr]], #16 *)
  Ld1 16 3 rhs_ptr (Imm 16); (* 9042: ld1 {v3.4s}, [%[rhs_ptr]], #16 *)
  Tst W 4 (Imm 32); (* 9046: tst w4, #0x20 *)
  B NE (Fwd 6); (* 9047: bne 6f *)
  V2 Fadd 16 16 14; (* 9049: fadd v16.4s, v16.4s, v14.4s *)
  V2 Fadd 17 17 15; (* 9050: fadd v17.4s, v17.4s, v15.4s *)
  V2 Fadd 18 18 14; (* 9051: fadd v18.4s, v18.4s, v14.4s *)
  V2 Fadd 19 19 15; (* 9052: fadd v19.4s, v19.4s, v15.4s *)
  V2 Fadd 20 20 14; (* 9053: fadd v20.4s, v20.4s, v14.4s *)
  V2 Fadd 21 21 15; (* 9054: fadd v21.4s, v21.4s, v15.4s *)
  V2 Fadd 22 22 14; (* 9055: fadd v22.4s, v22.4s, v14.4s *)
  V2 Fadd 23 23 15; (* 9056: fadd v23.4s, v23.4s, v15.4s *)
  V2 Fadd 24 24 14; (* 9057: fadd v24.4s, v24.4s, v14.4s *)
  V2 Fadd 25 25 15; (* 9058: fadd v25.4s, v25.4s, v15.4s *)
  V2 Fadd 26 26 14; (* 9059: fadd v26.4s, v26.4s, v14.4s *)
  V2 Fadd 27 27 15; (* 9060: fadd v27.4s, v27.4s, v15.4s *)
  V2 Fadd 28 28 14; (* 9061: fadd v28.4s, v28.4s, v14.4s *)
  V2 Fadd 29 29 15; (* 9062: fadd v29.4s, v29.4s, v15.4s *)
  V2 Fadd 30 30 14; (* 9063: fadd v30.4s, v30.4s, v14.4s *)
  V2 Fadd 31 31 15; (* 9064: fadd v31.4s, v31.4s, v15.4s *)
  B Always (Fwd 7); (* 9065: b 7f *)
  Label 6; (* 9067: 6: *)
  DupLane 4 4 8 14 0; (* 9069: dup v8.4s, v14.s[0] *)
  DupLane 4 4 9 14 1; (* 9070: dup v9.4s, v14.s[1] *)
  V2 Fadd 16 16 8; (* 9071: fadd v16.4s, v16.4s, v8.4s *)
  DupLane 4 4 10 14 2; (* 9072: dup v10.4s, v14.s[2] *)
  V2 Fadd 17 17 8; (* 9073: fadd v17.4s, v17.4s, v8.4s *)
  DupLane 4 4 11 14 3; (* 9074: dup v11.4s, v14.s[3] *)
  V2 Fadd 18 18 9; (* 9075: fadd v18.4s, v18.4s, v9.4s *)
  DupLane 4 4 12 15 0; (* 9076: dup v12.4s, v15.s[0] *)
  V2 Fadd 19 19 9; (* 9077: fadd v19.4s, v19.4s, v9.4s *)
  DupLane 4 4 13 15 1; (* 9078: dup v13.4s, v15.s[1] *)
  V2 Fadd 20 20 10; (* 9079: fadd v20.4s, v20.4s, v10.4s *)
  DupLane 4 4 14 15 2; (* 9080: dup v14.4s, v15.s[2] *)
  V2 Fadd 21 21 10; (* 9081: fadd v21.4s, v21.4s, v10.4s *)
  DupLane 4 4 15 15 3; (* 9082: dup v15.4s, v15.s[3] *)
  V2 Fadd 22 22 11; (* 9083: fadd v22.4s, v22.4s, v11.4s *)
  V2 Fadd 23 23 11; (* 9084: fadd v23.4s, v23.4s, v11.4s *)
  V2 Fadd 24 24 12; (* 9085: fadd v24.4s, v24.4s, v12.4s *)
  V2 Fadd 25 25 12; (* 9086: fadd v25.4s, v25.4s, v12.4s *)
  V2 Fadd 26 26 13; (* 9087: fadd v26.4s, v26.4s, v13.4s *)
  V2 Fadd 27 27 13; (* 9088: fadd v27.4s, v27.4s, v13.4s *)
  V2 Fadd 28 28 14; (* 9089: fadd v28.4s, v28.4s, v14.4s *)
  V2 Fadd 29 29 14; (* 9090: fadd v29.4s, v29.4s, v14.4s *)
  V2 Fadd 30 30 15; (* 9091: fadd v30.4s, v30.4s, v15.4s *)
  V2 Fadd 31 31 15; (* 9092: fadd v31.4s, v31.4s, v15.4s *)
  Label 7; (* 9093: 7: *)
  Ldr 4 2 params (Imm 72); (* 9096: ldr w2, [%[params], #72] *)
  Ldr 4 3 params (Imm 76); (* 9097: ldr w3, [%[params], #76] *)
  Dup 4 4 14 2; (* 9098: dup v14.4s, w2 *)
  Dup 4 4 15 3; (* 9099: dup v15.4s, w3 *)
  V2 Fmax 16 16 14; (* 9102: fmax v16.4s, v16.4s, v14.4s *)
  V2 Fmax 17 17 14; (* 9103: fmax v17.4s, v17.4s, v14.4s *)
  V2 Fmax 18 18 14; (* 9104: fmax v18.4s, v18.4s, v14.4s *)
  V2 Fmax 19 19 14; (* 9105: fmax v19.4s, v19.4s, v14.4s *)
  V2 Fmax 20 20 14; (* 9106: fmax v20.4s, v20.4s, v14.4s *)
  V2 Fmax 21 21 14; (* 9107: fmax v21.4s, v21.4s, v14.4s *)
  V2 Fmax 22 22 14; (* 9108: fmax v22.4s, v22.4s, v14.4s *)
  V2 Fmax 23 23 14; (* 9109: fmax v23.4s, v23.4s, v14.4s *)
  V2 Fmax 24 24 14; (* 9110: fmax v24.4s, v24.4s, v14.4s *)
  V2 Fmax 25 25 14; (* 9111: fmax v25.4s, v25.4s, v14.4s *)
  V2 Fmax 26 26 14; (* 9112: fmax v26.4s, v26.4s, v14.4s *)
  V2 Fmax 27 27 14; (* 9113: fmax v27.4s, v27.4s, v14.4s *)
  V2 Fmax 28 28 14; (* 9114: fmax v28.4s, v28.4s, v14.4s *)
  V2 Fmax 29 29 14; (* 9115: fmax v29.4s, v29.4s, v14.4s *)
  V2 Fmax 30 30 14; (* 9116: fmax v30.4s, v30.4s, v14.4s *)
  V2 Fmax 31 31 14; (* 9117: fmax v31.4s, v31.4s, v14.4s *)
  V2 Fmin 16 16 15; (* 9120: fmin v16.4s, v16.4s, v15.4s *)
  V2 Fmin 17 17 15; (* 9121: fmin v17.4s, v17.4s, v15.4s *)
  V2 Fmin 18 18 15; (* 9122: fmin v18.4s, v18.4s, v15.4s *)
  V2 Fmin 19 19 15; (* 9123: fmin v19.4s, v19.4s, v15.4s *)
  V2 Fmin 20 20 15; (* 9124: fmin v20.4s, v20.4s, v15.4s *)
  V2 Fmin 21 21 15; (* 9125: fmin v21.4s, v21.4s, v15.4s *)
  V2 Fmin 22 22 15; (* 9126: fmin v22.4s, v22.4s, v15.4s *)
  V2 Fmin 23 23 15; (* 9127: fmin v23.4s, v23.4s, v15.4s *)
  V2 Fmin 24 24 15; (* 9128: fmin v24.4s, v24.4s, v15.4s *)
  V2 Fmin 25 25 15; (* 9129: fmin v25.4s, v25.4s, v15.4s *)
  V2 Fmin 26 26 15; (* 9130: fmin v26.4s, v26.4s, v15.4s *)
  V2 Fmin 27 27 15; (* 9131: fmin v27.4s, v27.4s, v15.4s *)
  V2 Fmin 28 28 15; (* 9132: fmin v28.4s, v28.4s, v15.4s *)
  V2 Fmin 29 29 15; (* 9133: fmin v29.4s, v29.4s, v15.4s *)
  V2 Fmin 30 30 15; (* 9134: fmin v30.4s, v30.4s, v15.4s *)
  V2 Fmin 31 31 15; (* 9135: fmin v31.4s, v31.4s, v15.4s *)
  Alu ASub false W 1 dst_rows (Reg row); (* 9142: sub w1, %w[dst_rows], %w[row] *)
  Alu ASub false W 2 dst_cols (Reg col); (* 9143: sub w2, %w[dst_cols], %w[col] *)
  Mov W 3 (Imm 8); (* 9144: mov w3, #8 *)
  Cmp W 1 (Imm 8); (* 9145: cmp w1, #8 *)
  Csel W 1 1 3 LE; (* 9147: csel w1, w1, w3, le *)
  Cmp W 2 (Imm 8); (* 9148: cmp w2, #8 *)
  Csel W 2 2 3 LE; (* 9150: csel w2, w2, w3, le *)
  Cmp W 1 (Reg 3); (* 9153: cmp w1, w3 *)
  Ccmp W 2 (Reg 3) EQ; (* 9154: ccmp w2, w3, 0, eq *)
  B EQ (Fwd 30); (* 9156: beq 30f *)
  Mov X 3 (Reg dst_tmp_buf); (* 9159: mov x3, %[dst_tmp_buf] *)
  Mov X 4 (Imm 32); (* 9160: mov x4, #32 *)
  B Always (Fwd 31); (* 9161: b 31f *)
  Label 30; (* 9162: 30: *)
  Mov X 3 (Reg dst_ptr); (* 9165: mov x3, %[dst_ptr] *)
  Mov X 4 (Reg 11); (* 9166: mov x4, x11 *)
  Label 31; (* 9167: 31: *)
  Nop; (* 9171: prfm pstl1strm, [x3] *)
  StrQ 16 3 (Imm 0); (* 9172: str q16, [x3, #0] *)
  StrQ 17 3 (Imm 16); (* 9173: str q17, [x3, #16] *)
  Alu AAdd false X 3 3 (Reg 4); (* 9174: add x3, x3, x4 *)
  Nop; (* 9175: prfm pstl1strm, [x3] *)
  Movi 16 0; (* 9176: movi v16.4s, #0 *)
  Movi 17 0; (* 9177: movi v17.4s, #0 *)
  StrQ 18 3 (Imm 0); (* 9178: str q18, [x3, #0] *)
  StrQ 19 3 (Imm 16); (* 9179: str q19, [x3, #16] *)
  Alu AAdd false X 3 3 (Reg 4); (* 9180: add x3, x3, x4 *)
  Nop; (* 9181: prfm pstl1strm, [x3] *)
  Movi 18 0; (* 9182: movi v18.4s, #0 *)
  Movi 19 0; (* 9183: movi v19.4s, #0 *)
  StrQ 20 3 (Imm 0); (* 9184: str q20, [x3, #0] *)
  StrQ 21 3 (Imm 16); (* 9185: str q21, [x3, #16] *)
  Alu AAdd false X 3 3 (Reg 4); (* 9186: add x3, x3, x4 *)
  Nop; (* 9187: prfm pstl1strm, [x3] *)
  Movi 20 0; (* 9188: movi v20.4s, #0 *)
  Movi 21 0; (* 9189: movi v21.4s, #0 *)
  StrQ 22 3 (Imm 0); (* 9190: str q22, [x3, #0] *)
  StrQ 23 3 (Imm 16); (* 9191: str q23, [x3, #16] *)
  Alu AAdd false X 3 3 (Reg 4); (* 9192: add x3, x3, x4 *)
  Nop; (* 9193: prfm pstl1strm, [x3] *)
  Movi 22 0; (* 9194: movi v22.4s, #0 *)
  Movi 23 0; (* 9195: movi v23.4s, #0 *)
  StrQ 24 3 (Imm 0); (* 9196: str q24, [x3, #0] *)
  StrQ 25 3 (Imm 16); (* 9197: str q25, [x3, #16] *)
  Alu AAdd false X 3 3 (Reg 4); (* 9198: add x3, x3, x4 *)
  Nop; (* 9199: prfm pstl1strm, [x3] *)
  Movi 24 0; (* 9200: movi v24.4s, #0 *)
  Movi 25 0; (* 9201: movi v25.4s, #0 *)
  StrQ 26 3 (Imm 0); (* 9202: str q26, [x3, #0] *)
  StrQ 27 3 (Imm 16); (* 9203: str q27, [x3, #16] *)
  Alu AAdd false X 3 3 (Reg 4); (* 9204: add x3, x3, x4 *)
  Nop; (* 9205: prfm pstl1strm, [x3] *)
  Movi 26 0; (* 9206: movi v26.4s, #0 *)
  Movi 27 0; (* 9207: movi v27.4s, #0 *)
  StrQ 28 3 (Imm 0); (* 9208: str q28, [x3, #0] *)
  StrQ 29 3 (Imm 16); (* 9209: str q29, [x3, #16] *)
  Alu AAdd false X 3 3 (Reg 4); (* 9210: add x3, x3, x4 *)
  Nop; (* 9211: prfm pstl1strm, [x3] *)
  Movi 28 0; (* 9212: movi v28.4s, #0 *)
  Movi 29 0; (* 9213: movi v29.4s, #0 *)
  StrQ 30 3 (Imm 0); (* 9214: str q30, [x3, #0] *)
  StrQ 31 3 (Imm 16); (* 9215: str q31, [x3, #16] *)
  Movi 30 0; (* 9216: movi v30.4s, #0 *)
  Movi 31 0; (* 9217: movi v31.4s, #0 *)
  B EQ (Fwd 41); (* 9221: beq 41f *)
  Mov X 3 (Reg dst_tmp_buf); (* 9225: mov x3, %[dst_tmp_buf] *)
  Mov X 4 (Reg dst_ptr); (* 9226: mov x4, %[dst_ptr] *)
  Mov W 6 (Imm 0); (* 9227: mov w6, #0 *)
  Label 50; (* 9228: 50: *)
  Nop; (* 9229: prfm pstl1strm, [x4] *)
  Mov W 5 (Imm 0); (* 9230: mov w5, #0 *)
  Label 51; (* 9231: 51: *)
  Ldr 4 7 3 (Lsl 5 2); (* 9232: ldr w7, [x3, x5, lsl #2] *)
  Str 4 7 4 (Lsl 5 2); (* 9233: str w7, [x4, x5, lsl #2] *)
  Alu AAdd false W 5 5 (Imm 1); (* 9234: add w5, w5, #1 *)
  Cmp W 5 (Reg 1); (* 9235: cmp w5, w1 *)
  B LT (Back 51); (* 9236: blt 51b *)
  Alu AAdd false W 6 6 (Imm 1); (* 9237: add w6, w6, #1 *)
  Alu AAdd false X 3 3 (Imm 32); (* 9238: add x3, x3, #32 *)
  Alu AAdd false X 4 4 (Reg 11); (* 9239: add x4, x4, x11 *)
  Cmp W 6 (Reg 2); (* 9240: cmp w6, w2 *)
  B LT (Back 50); (* 9241: blt 50b *)
  Label 41; (* 9242: 41: *)
  Alu AAdd false X dst_ptr dst_ptr (Imm 32); (* 9243: add %[dst_ptr], %[dst_ptr], #32 *)
  Ldr 8 5 params (Imm 0); (* 9249: ldr x5, [%[params], #0] *)
  Ldr 4 6 params (Imm 32); (* 9250: ldr w6, [%[params], #32] *)
  Ldr 4 7 params (Imm 40); (* 9251: ldr w7, [%[params], #40] *)
  Cmp W row (Reg 7); (* 9257: cmp %w[row], w7 *)
  B EQ (Fwd 20); (* 9258: beq 20f *)
  Alu AAdd false W row row (Imm 8); (* 9260: add %w[row], %w[row], #8 *)
  B Always (Fwd 21); (* 9261: b 21f *)
  Label 20; (* 9262: 20: *)
  Mov W row (Reg 6); (* 9264: mov %w[row], w6 *)
  Alu AAdd false W col col (Imm 8); (* 9265: add %w[col], %w[col], #8 *)
  Alu AAdd false X dst_col_ptr dst_col_ptr (Lsl 11 3); (* 9266: add %[dst_col_ptr], %[dst_col_ptr], x11, lsl #3 *)
  Mov X dst_ptr (Reg dst_col_ptr); (* 9267: mov %[dst_ptr], %[dst_col_ptr] *)
  Label 21; (* 9268: 21: *)
  Cmp W col (Reg 8); (* 9271: cmp %w[col], w8 *)
  Alu ASub false W 1 12 (Imm 1); (* 9276: sub w1, w12, #1 *)
  B LE (Back 1) (* 9278: ble 1b *)
].

(** kernel_arm64.cc:9351-9771, KernelFloatNeonDotprodA55ish. *)
Definition kernelf_dotprod_a55 : list instr := [
  Ldr 8 5 params (Imm 0); (* 9351: ldr x5, [%[params], #0] *)
  Ldr 4 6 params (Imm 32); (* 9352: ldr w6, [%[params], #32] *)
  Ldr 4 7 params (Imm 40); (* 9353: ldr w7, [%[params], #40] *)
  Ldr 4 8 params (Imm 44); (* 9354: ldr w8, [%[params], #44] *)
  Ldr 4 9 params (Imm 56); (* 9355: ldr w9, [%[params], #56] *)
  Ldr 4 10 params (Imm 60); (* 9356: ldr w10, [%[params], #60] *)
  Ldr 4 11 params (Imm 64); (* 9357: ldr w11, [%[params], #64] *)
  Ldr 4 12 params (Imm 68); (* 9358: ldr w12, [%[params], #68] *)
  Movi 16 0; (* 9362: movi v16.4s, #0 *)
  Ld1 16 0 lhs_ptr (Imm 16); (* 9364: ld1 {v0.4s}, [%[lhs_ptr]], #16 *)
  Movi 17 0; (* 9365: movi v17.4s, #0 *)
  Ld1 16 1 lhs_ptr (Imm 16); (* 9366: ld1 {v1.4s}, [%[lhs_ptr]], #16 *)
  Movi 18 0; (* 9367: movi v18.4s, #0 *)
  Ld1 16 2 rhs_ptr (Imm 16); (* 9368: ld1 {v2.4s}, [%[rhs_ptr]], #16 *)
  Movi 19 0; (* 9369: movi v19.4s, #0 *)
  Ld1 16 3 rhs_ptr (Imm 16); (* 9370: ld1 {v3.4s}, [%[rhs_ptr]], #16 *)
  Movi 20 0; (* 9371: movi v20.4s, #0 *)
  Nop; (* 9372: prfm pldl1keep, [%[lhs_ptr], #64] *)
  Movi 21 0; (* 9373: movi v21.4s, #0 *)
  Nop; (* 9374: prfm pldl1keep, [%[rhs_ptr], #64] *)
  Movi 22 0; (* 9375: movi v22.4s, #0 *)
  Nop; (* 9376: prfm pldl1keep, [%[lhs_ptr], #128] *)
  Movi 23 0; (* 9377: movi v23.4s, #0 *)
  Nop; (* 9378: prfm pldl1keep, [%[rhs_ptr], #128] *)
  Movi 24 0; (* 9379: movi v24.4s, #0 *)
  Nop; (* 9380: prfm pldl1keep, [%[lhs_ptr], #192] *)
  Movi 25 0; (* 9381: movi v25.4s, #0 *)
  Nop; (* 9382: prfm pldl1keep, [%[rhs_ptr], #192] *)
  Movi 26 0; (* 9383: movi v26.4s, #0 *)
  Nop; (* 9384: prfm pldl1keep, [%[lhs_ptr], #256] *)
  Movi 27 0; (* 9385: movi v27.4s, #0 *)
  Nop; (* 9386: prfm pldl1keep, [%[rhs_ptr], #256] *)
  Movi 28 0; (* 9387: movi v28.4s, #0 *)
  Movi 29 0; (* 9388: movi v29.4s, #0 *)
  Movi 30 0; (* 9389: movi v30.4s, #0 *)
  Movi 31 0; (* 9390: movi v31.4s, #0 *)
  Alu ASub false W 1 12 (Imm 1); (* 9395: sub w1, w12, #1 *)
  Label 1; (* 9399: 1: *)
  Cmp W 1 (Imm 0); (* 9401: cmp w1, #0 *)
  Fmla 16 0 2 0; (* 9402: fmla v16.4s, v0.4s, v2.s[0] *)
  Fmla 18 0 2 1; (* 9403: fmla v18.4s, v0.4s, v2.s[1] *)
  Fmla 20 0 2 2; (* 9404: fmla v20.4s, v0.4s, v2.s[2] *)
  Fmla 22 0 2 3; (* 9405: fmla v22.4s, v0.4s, v2.s[3] *)
  B EQ (Fwd 79); (* 9408: beq 79f *)
  Label 2; (* 9410: 2: *)
  Nop; (* 9412: prfm pldl1keep, [%[lhs_ptr], #256] *)
  Fmla 24 0 3 0; (* 9413: fmla v24.4s, v0.4s, v3.s[0] *)
  Ldr 8 2 lhs_ptr (Imm 8); (* 9414: ldr x2, [%[lhs_ptr], #8] *)
  Fmla 26 0 3 1; (* 9415: fmla v26.4s, v0.4s, v3.s[1] *)
  Ldr 8 3 lhs_ptr (Imm 24); (* 9416: ldr x3, [%[lhs_ptr], #24] *)
  Fmla 28 0 3 2; (* 9417: fmla v28.4s, v0.4s, v3.s[2] *)
  Ldr 8 5 rhs_ptr (Imm 24); (* 9418: ldr x5, [%[rhs_ptr], #24] *)
  Fmla 30 0 3 3; (* 9419: fmla v30.4s, v0.4s, v3.s[3] *)
  Ld1 8 0 lhs_ptr (Imm 32); (* 9420: ldr d0, [%[lhs_ptr]], #32 *)
  Fmla 25 1 3 0; (* 9421: fmla v25.4s, v1.4s, v3.s[0] *)
  Ldr 8 4 rhs_ptr (Imm 8); (* 9422: ldr x4, [%[rhs_ptr], #8] *)
  Fmla 27 1 3 1; (* 9423: fmla v27.4s, v1.4s, v3.s[1] *)
  Alu ASub true W 1 1 (Imm 1); (* 9424: subs w1, w1, #1 *)
  Fmla 29 1 3 2; (* 9425: fmla v29.4s, v1.4s, v3.s[2] *)
  Ins 8 0 1 2; (* 9426: ins v0.d[1], x2 *)
  Fmla 31 1 3 3; (* 9427: fmla v31.4s, v1.4s, v3.s[3] *)
  LdrD 3 rhs_ptr (Imm 16); (* 9428: ldr d3, [%[rhs_ptr], #16] *)
  Fmla 17 1 2 0; (* 9429: fmla v17.4s, v1.4s, v2.s[0] *)
  Ins 8 3 1 5; (* 9430: ins v3.d[1], x5 *)
  Fmla 19 1 2 1; (* 9431: fmla v19.4s, v1.4s, v2.s[1] *)
  Ld1 8 4 rhs_ptr (Imm 32); (* 9432: ldr d4, [%[rhs_ptr]], #32 *)
  Fmla 21 1 2 2; (* 9433: fmla v21.4s, v1.4s, v2.s[2] *)
  Ins 8 4 1 4; (* 9434: ins v4.d[1], x4 *)
  Fmla 23 1 2 3; (* 9435: fmla v23.4s, v1.4s, v2.s[3] *)
  Nop; (* 9436: prfm pldl1keep, [%[rhs_ptr], #256] *)
  Fmla 16 0 4 0; (* 9437: fmla v16.4s, v0.4s, v4.s[0] *)
  LdrD 1 lhs_ptr (Imm (-16)); (* 9438: ldr d1, [%[lhs_ptr], #-16] *)
  Fmla 18 0 4 1; (* 9439: fmla v18.4s, v0.4s, v4.s[1] *)
  Ins 8 1 1 3; (* 9440: ins v1.d[1], x3 *)
  Fmla 20 0 4 2; (* 9441: fmla v20.4s, v0.4s, v4.s[2] *)
  VMov 2 4; (* 9442: mov v2.16b, v4.16b *)
  Fmla 22 0 4 3; (* 9443: fmla v22.4s, v0.4s, v4.s[3] *)
  B NE (Back 2); (* 9444: bne 2b *)
  Label 79; (* 9446: 79: *)
  Fmla 24 0 3 0; (* 9452: fmla v24.4s, v0.4s, v3.s[0] *)
  Fmla 26 0 3 1; (* 9453: fmla v26.4s, v0.4s, v3.s[1] *)
  Fmla 28 0 3 2; (* 9454: fmla v28.4s, v0.4s, v3.s[2] *)
  Fmla 30 0 3 3; (* 9455: fmla v30.4s, v0.4s, v3.s[3] *)
  Fmla 25 1 3 0; (* 9456: fmla v25.4s, v1.4s, v3.s[0] *)
  Fmla 27 1 3 1; (* 9457: fmla v27.4s, v1.4s, v3.s[1] *)
  Fmla 29 1 3 2; (* 9458: fmla v29.4s, v1.4s, v3.s[2] *)
  Fmla 31 1 3 3; (* 9459: fmla v31.4s, v1.4s, v3.s[3] *)
  Ldr 8 5 params (Imm 0); (* 9460: ldr x5, [%[params], #0] *)
  Fmla 17 1 2 0; (* 9461: fmla v17.4s, v1.4s, v2.s[0] *)
  Fmla 19 1 2 1; (* 9462: fmla v19.4s, v1.4s, v2.s[1] *)
  Fmla 21 1 2 2; (* 9463: fmla v21.4s, v1.4s, v2.s[2] *)
  Fmla 23 1 2 3; (* 9464: fmla v23.4s, v1.4s, v2.s[3] *)
  Cmp W row (Reg 7); (* 9482: cmp %w[row], w7 *)
  B GE (Fwd 4); (* 9483: bge 4f *)
  Alu AAdd false X lhs_col_ptr lhs_col_ptr (Lsl 9 3); (* 9485: add %[lhs_col_ptr], %[lhs_col_ptr], x9, lsl #3 *)
  B Always (Fwd 5); (* 9486: b 5f *)
  Label 4; (* 9487: 4: *)
  Mov X lhs_col_ptr (Reg 5); (* 9488: mov %[lhs_col_ptr], x5 *)
  Cmp W col (Reg 8); (* 9496: cmp %w[col], w8 *)
  B GE (Fwd 5); (* 9497: bge 5f *)
  Alu AAdd false X rhs_col_ptr rhs_col_ptr (Lsl 10 3); (* 9499: add %[rhs_col_ptr], %[rhs_col_ptr], x10, lsl #3 *)
  Label 5; (* 9500: 5: *)
  Mov X lhs_ptr (Reg lhs_col_ptr); (* 9504: mov %[lhs_ptr], %[lhs_col_ptr] *)
  Mov X rhs_ptr (Reg rhs_col_ptr); (* 9505: mov %[rhs_ptr], %[rhs_col_ptr] *)
  Ldr 1 4 params (Imm 80); (* 9508: ldrb w4, [%[params], #80] *)
  Ldr 8 1 params (Imm 24); (* 9509: ldr x1, [%[params], #24] *)
  Tst W 4 (Imm 32); (* 9512: tst w4, #0x20 *)
  Csel W 3 row col EQ; (* 9513: csel w3, %w[row], %w[col], eq *)
  Alu AAdd false X 5 1 (Lsl 3 2); (* 9516: add x5, x1, x3, lsl #2 *)
  Tst W 4 (Imm 1); (* 9521: tst w4, #0x1 *)
  Csel X 1 1 5 EQ; (* 9522: csel x1, x1, x5, eq *)
  Ld1 16 14 1 (Imm 16); (* 9525: ld1 {v14.4s}, [x1], #16 *)
  Ld1 16 15 1 (Imm 0); (* 9526: ld1 {v15.4s}, [x1] *)
  Ld1 16 0 lhs_ptr (Imm 16); (* 9532: ld1 {v0.4s}, [%[lhs_ptr]], #16 *)
  Ld1 16 1 lhs_ptr (Imm 16); (* 9533: ld1 {v1.4s}, [%[lhs_ptr]], #16 *)
  Ld1 16 2 rhs_ptr (Imm 16); (* 9534: ld1 {v2.4s}, [%[rhs_ptr]], #16 *)
  Ld1 16 3 rhs_ptr (Imm 16); (* 9535: ld1 {v3.4s}, [%[rhs_ptr]], #16 *)
  Tst W 4 (Imm 32); (* 9539: tst w4, #0x20 *)
  B NE (Fwd 6); (* 9540: bne 6f *)
  V2 Fadd 16 16 14; (* 9542: fadd v16.4s, v16.4s, v14.4s *)
  V2 Fadd 17 17 15; (* 9543: fadd v17.4s, v17.4s, v15.4s *)
  V2 Fadd 18 18 14; (* 9544: fadd v18.4s, v18.4s, v14.4s *)
  V2 Fadd 19 19 15; (* 9545: fadd v19.4s, v19.4s, v15.4s *)
  V2 Fadd 20 20 14; (* 9546: fadd v20.4s, v20.4s, v14.4s *)
  V2 Fadd 21 21 15; (* 9547: fadd v21.4s, v21.4s, v15.4s *)
  V2 Fadd 22 22 14; (* 9548: fadd v22.4s, v22.4s, v14.4s *)
  V2 Fadd 23 23 15; (* 9549: fadd v23.4s, v23.4s, v15.4s *)
  V2 Fadd 24 24 14; (* 9550: fadd v24.4s, v24.4s, v14.4s *)
  V2 Fadd 25 25 15; (* 9551: fadd v25.4s, v25.4s, v15.4s *)
  V2 Fadd 26 26 14; (* 9552: fadd v26.4s, v26.4s, v14.4s *)
  V2 Fadd 27 27 15; (* 9553: fadd v27.4s, v27.4s, v15.4s *)
  V2 Fadd 28 28 14; (* 9554: fadd v28.4s, v28.4s, v14.4s *)
  V2 Fadd 29 29 15; (* 9555: fadd v29.4s, v29.4s, v15.4s *)
  V2 Fadd 30 30 14; (* 9556: fadd v30.4s, v30.4s, v14.4s *)
  V2 Fadd 31 31 15; (* 9557: fadd v31.4s, v31.4s, v15.4s *)
  B Always (Fwd 7); (* 9558: b 7f *)
  Label 6; (* 9560: 6: *)
  DupLane 4 4 8 14 0; (* 9562: dup v8.4s, v14.s[0] *)
  DupLane 4 4 9 14 1; (* 9563: dup v9.4s, v14.s[1] *)
  V2 Fadd 16 16 8; (* 9564: fadd v16.4s, v16.4s, v8.4s *)
  DupLane 4 4 10 14 2; (* 9565: dup v10.4s, v14.s[2] *)
  V2 Fadd 17 17 8; (* 9566: fadd v17.4s, v17.4s, v8.4s *)
  DupLane 4 4 11 14 3; (* 9567: dup v11.4s, v14.s[3] *)
  V2 Fadd 18 18 9; (* 9568: fadd v18.4s, v18.4s, v9.4s *)
  DupLane 4 4 12 15 0; (* 9569: dup v12.4s, v15.s[0] *)
  V2 Fadd 19 19 9; (* 9570: fadd v19.4s, v19.4s, v9.4s *)
  DupLane 4 4 13 15 1; (* 9571: dup v13.4s, v15.s[1] *)
  V2 Fadd 20 20 10; (* 9572: fadd v20.4s, v20.4s, v10.4s *)
  DupLane 4 4 14 15 2; (* 9573: dup v14.4s, v15.s[2] *)
  V2 Fadd 21 21 10; (* 9574: fadd v21.4s, v21.4s, v10.4s *)
  DupLane 4 4 15 15 3; (* 9575: dup v15.4s, v15.s[3] *)
  V2 Fadd 22 22 11; (* 9576: fadd v22.4s, v22.4s, v11.4s *)
  V2 Fadd 23 23 11; (* 9577: fadd v23.4s, v23.4s, v11.4s *)
  V2 Fadd 24 24 12; (* 9578: fadd v24.4s, v24.4s, v12.4s *)
  V2 Fadd 25 25 12; (* 9579: fadd v25.4s, v25.4s, v12.4s *)
  V2 Fadd 26 26 13; (* 9580: fadd v26.4s, v26.4s, v13.4s *)
  V2 Fadd 27 27 13; (* 9581: fadd v27.4s, v27.4s, v13.4s *)
  V2 Fadd 28 28 14; (* 9582: fadd v28.4s, v28.4s, v14.4s *)
  V2 Fadd 29 29 14; (* 9583: fadd v29.4s, v29.4s, v14.4s *)
  V2 Fadd 30 30 15; (* 9584: fadd v30.4s, v30.4s, v15.4s *)
  V2 Fadd 31 31 15; (* 9585: fadd v31.4s, v31.4s, v15.4s *)
  Label 7; (* 9586: 7: *)
  Ldr 4 2 params (Imm 72); (* 9589: ldr w2, [%[params], #72] *)
  Ldr 4 3 params (Imm 76); (* 9590: ldr w3, [%[params], #76] *)
  Dup 4 4 14 2; (* 9591: dup v14.4s, w2 *)
  Dup 4 4 15 3; (* 9592: dup v15.4s, w3 *)
  V2 Fmax 16 16 14; (* 9595: fmax v16.4s, v16.4s, v14.4s *)
  V2 Fmax 17 17 14; (* 9596: fmax v17.4s, v17.4s, v14.4s *)
  V2 Fmax 18 18 14; (* 9597: fmax v18.4s, v18.4s, v14.4s *)
  V2 Fmax 19 19 14; (* 9598: fmax v19.4s, v19.4s, v14.4s *)
  V2 Fmax 20 20 14; (* 9599: fmax v20.4s, v20.4s, v14.4s *)
  V2 Fmax 21 21 14; (* 9600: fmax v21.4s, v21.4s, v14.4s *)
  V2 Fmax 22 22 14; (* 9601: fmax v22.4s, v22.4s, v14.4s *)
  V2 Fmax 23 23 14; (* 9602: fmax v23.4s, v23.4s, v14.4s *)
  V2 Fmax 24 24 14; (* 9603: fmax v24.4s, v24.4s, v14.4s *)
  V2 Fmax 25 25 14; (* 9604: fmax v25.4s, v25.4s, v14.4s *)
  V2 Fmax 26 26 14; (* 9605: fmax v26.4s, v26.4s, v14.4s *)
  V2 Fmax 27 27 14; (* 9606: fmax v27.4s, v27.4s, v14.4s *)
  V2 Fmax 28 28 14; (* 9607: fmax v28.4s, v28.4s, v14.4s *)
  V2 Fmax 29 29 14; (* 9608: fmax v29.4s, v29.4s, v14.4s *)
  V2 Fmax 30 30 14; (* 9609: fmax v30.4s, v30.4s, v14.4s *)
  V2 Fmax 31 31 14; (* 9610: fmax v31.4s, v31.4s, v14.4s *)
  V2 Fmin 16 16 15; (* 9613: fmin v16.4s, v16.4s, v15.4s *)
  V2 Fmin 17 17 15; (* 9614: fmin v17.4s, v17.4s, v15.4s *)
  V2 Fmin 18 18 15; (* 9615: fmin v18.4s, v18.4s, v15.4s *)
  V2 Fmin 19 19 15; (* 9616: fmin v19.4s, v19.4s, v15.4s *)
  V2 Fmin 20 20 15; (* 9617: fmin v20.4s, v20.4s, v15.4s *)
  V2 Fmin 21 21 15; (* 9618: fmin v21.4s, v21.4s, v15.4s *)
  V2 Fmin 22 22 15; (* 9619: fmin v22.4s, v22.4s, v15.4s *)
  V2 Fmin 23 23 15; (* 9620: fmin v23.4s, v23.4s, v15.4s *)
  V2 Fmin 24 24 15; (* 9621: fmin v24.4s, v24.4s, v15.4s *)
  V2 Fmin 25 25 15; (* 9622: fmin v25.4s, v25.4s, v15.4s *)
  V2 Fmin 26 26 15; (* 9623: fmin v26.4s, v26.4s, v15.4s *)
  V2 Fmin 27 27 15; (* 9624: fmin v27.4s, v27.4s, v15.4s *)
  V2 Fmin 28 28 15; (* 9625: fmin v28.4s, v28.4s, v15.4s *)
  V2 Fmin 29 29 15; (* 9626: fmin v29.4s, v29.4s, v15.4s *)
  V2 Fmin 30 30 15; (* 9627: fmin v30.4s, v30.4s, v15.4s *)
  V2 Fmin 31 31 15; (* 9628: fmin v31.4s, v31.4s, v15.4s *)
  Alu ASub false W 1 dst_rows (Reg row); (* 9635: sub w1, %w[dst_rows], %w[row] *)
  Alu ASub false W 2 dst_cols (Reg col); (* 9636: sub w2, %w[dst_cols], %w[col] *)
  Mov W 3 (Imm 8); (* 9637: mov w3, #8 *)
  Cmp W 1 (Imm 8); (* 9638: cmp w1, #8 *)
  Csel W 1 1 3 LE; (* 9640: csel w1, w1, w3, le *)
  Cmp W 2 (Imm 8); (* 9641: cmp w2, #8 *)
  Csel W 2 2 3 LE; (* 9643: csel w2, w2, w3, le *)
  Cmp W 1 (Reg 3); (* 9646: cmp w1, w3 *)
  Ccmp W 2 (Reg 3) EQ; (* 9647: ccmp w2, w3, 0, eq *)
  B EQ (Fwd 30); (* 9649: beq 30f *)
  Mov X 3 (Reg dst_tmp_buf); (* 9652: mov x3, %[dst_tmp_buf] *)
  Mov X 4 (Imm 32); (* 9653: mov x4, #32 *)
  B Always (Fwd 31); (* 9654: b 31f *)
  Label 30; (* 9655: 30: *)
  Mov X 3 (Reg dst_ptr); (* 9658: mov x3, %[dst_ptr] *)
  Mov X 4 (Reg 11); (* 9659: mov x4, x11 *)
  Label 31; (* 9660: 31: *)
  Nop; (* 9664: prfm pstl1strm, [x3] *)
  StrQ 16 3 (Imm 0); (* 9665: str q16, [x3, #0] *)
  StrQ 17 3 (Imm 16); (* 9666: str q17, [x3, #16] *)
  Alu AAdd false X 3 3 (Reg 4); (* 9667: add x3, x3, x4 *)
  Nop; (* 9668: prfm pstl1strm, [x3] *)
  Movi 16 0; (* 9669: movi v16.4s, #0 *)
  Movi 17 0; (* 9670: movi v17.4s, #0 *)
  StrQ 18 3 (Imm 0); (* 9671: str q18, [x3, #0] *)
  StrQ 19 3 (Imm 16); (* 9672: str q19, [x3, #16] *)
  Alu AAdd false X 3 3 (Reg 4); (* 9673: add x3, x3, x4 *)
  Nop; (* 9674: prfm pstl1strm, [x3] *)
  Movi 18 0; (* 9675: movi v18.4s, #0 *)
  Movi 19 0; (* 9676: movi v19.4s, #0 *)
  StrQ 20 3 (Imm 0); (* 9677: str q20, [x3, #0] *)
  StrQ 21 3 (Imm 16); (* 9678: str q21, [x3, #16] *)
  Alu AAdd false X 3 3 (Reg 4); (* 9679: add x3, x3, x4 *)
  Nop; (* 9680: prfm pstl1strm, [x3] *)
  Movi 20 0; (* 9681: movi v20.4s, #0 *)
  Movi 21 0; (* 9682: movi v21.4s, #0 *)
  StrQ 22 3 (Imm 0); (* 9683: str q22, [x3, #0] *)
  StrQ 23 3 (Imm 16); (* 9684: str q23, [x3, #16] *)
  Alu AAdd false X 3 3 (Reg 4); (* 9685: add x3, x3, x4 *)
  Nop; (* 9686: prfm pstl1strm, [x3] *)
  Movi 22 0; (* 9687: movi v22.4s, #0 *)
  Movi 23 0; (* 9688: movi v23.4s, #0 *)
  StrQ 24 3 (Imm 0); (* 9689: str q24, [x3, #0] *)
  StrQ 25 3 (Imm 16); (* 9690: str q25, [x3, #16] *)
  Alu AAdd false X 3 3 (Reg 4); (* 9691: add x3, x3, x4 *)
  Nop; (* 9692: prfm pstl1strm, [x3] *)
  Movi 24 0; (* 9693: movi v24.4s, #0 *)
  Movi 25 0; (* 9694: movi v25.4s, #0 *)
  StrQ 26 3 (Imm 0); (* 9695: str q26, [x3, #0] *)
  StrQ 27 3 (Imm 16); (* 9696: str q27, [x3, #16] *)
  Alu AAdd false X 3 3 (Reg 4); (* 9697: add x3, x3, x4 *)
  Nop; (* 9698: prfm pstl1strm, [x3] *)
  Movi 26 0; (* 9699: movi v26.4s, #0 *)
  Movi 27 0; (* 9700: movi v27.4s, #0 *)
  StrQ 28 3 (Imm 0); (* 9701: str q28, [x3, #0] *)
  StrQ 29 3 (Imm 16); (* 9702: str q29, [x3, #16] *)
  Alu AAdd false X 3 3 (Reg 4); (* 9703: add x3, x3, x4 *)
  Nop; (* 9704: prfm pstl1strm, [x3] *)
  Movi 28 0; (* 9705: movi v28.4s, #0 *)
  Movi 29 0; (* 9706: movi v29.4s, #0 *)
  StrQ 30 3 (Imm 0); (* 9707: str q30, [x3, #0] *)
  StrQ 31 3 (Imm 16); (* 9708: str q31, [x3, #16] *)
  Movi 30 0; (* 9709: movi v30.4s, #0 *)
  Movi 31 0; (* 9710: movi v31.4s, #0 *)
  B EQ (Fwd 41); (* 9714: beq 41f *)
  Mov X 3 (Reg dst_tmp_buf); (* 9718: mov x3, %[dst_tmp_buf] *)
  Mov X 4 (Reg dst_ptr); (* 9719: mov x4, %[dst_ptr] *)
  Mov W 6 (Imm 0); (* 9720: mov w6, #0 *)
  Label 50; (* 9721: 50: *)
  Nop; (* 9722: prfm pstl1strm, [x4] *)
  Mov W 5 (Imm 0); (* 9723: mov w5, #0 *)
  Label 51; (* 9724: 51: *)
  Ldr 4 7 3 (Lsl 5 2); (* 9725: ldr w7, [x3, x5, lsl #2] *)
  Str 4 7 4 (Lsl 5 2); (* 9726: str w7, [x4, x5, lsl #2] *)
  Alu AAdd false W 5 5 (Imm 1); (* 9727: add w5, w5, #1 *)
  Cmp W 5 (Reg 1); (* 9728: cmp w5, w1 *)
  B LT (Back 51); (* 9729: blt 51b *)
  Alu AAdd false W 6 6 (Imm 1); (* 9730: add w6, w6, #1 *)
  Alu AAdd false X 3 3 (Imm 32); (* 9731: add x3, x3, #32 *)
  Alu AAdd false X 4 4 (Reg 11); (* 9732: add x4, x4, x11 *)
  Cmp W 6 (Reg 2); (* 9733: cmp w6, w2 *)
  B LT (Back 50); (* 9734: blt 50b *)
  Label 41; (* 9735: 41: *)
  Alu AAdd false X dst_ptr dst_ptr (Imm 32); (* 9736: add %[dst_ptr], %[dst_ptr], #32 *)
  Ldr 8 5 params (Imm 0); (* 9742: ldr x5, [%[params], #0] *)
  Ldr 4 6 params (Imm 32); (* 9743: ldr w6, [%[params], #32] *)
  Ldr 4 7 params (Imm 40); (* 9744: ldr w7, [%[params], #40] *)
  Cmp W row (Reg 7); (* 9750: cmp %w[row], w7 *)
  B EQ (Fwd 20); (* 9751: beq 20f *)
  Alu AAdd false W row row (Imm 8); (* 9753: add %w[row], %w[row], #8 *)
  B Always (Fwd 21); (* 9754: b 21f *)
  Label 20; (* 9755: 20: *)
  Mov W row (Reg 6); (* 9757: mov %w[row], w6 *)
  Alu AAdd false W col col (Imm 8); (* 9758: add %w[col], %w[col], #8 *)
  Alu AAdd false X dst_col_ptr dst_col_ptr (Lsl 11 3); (* 9759: add %[dst_col_ptr], %[dst_col_ptr], x11, lsl #3 *)
  Mov X dst_ptr (Reg dst_col_ptr); (* 9760: mov %[dst_ptr], %[dst_col_ptr] *)
  Label 21; (* 9761: 21: *)
  Cmp W col (Reg 8); (* 9764: cmp %w[col], w8 *)
  Alu ASub false W 1 12 (Imm 1); (* 9769: sub w1, w12, #1 *)
  B LE (Back 1) (* 9771: ble 1b *)
].
