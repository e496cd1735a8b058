(** The assembly of the 8-bit kernels for AArch64 in ruy/kernel_arm64.cc.

    Transcribed from the sources by tools/asm2coq.py: for each instruction its line and text. The operands of
    the asm statements are kept in registers chosen by the compiler, numbered from 40 here. *)
From Coq Require Import ZArith List.
From Verif Require Import Neon64.
Import ListNotations.
Open Scope Z_scope.

Local Notation lhs_col_ptr := 40%nat (only parsing).
Local Notation rhs_col_ptr := 41%nat (only parsing).
Local Notation lhs_ptr := 42%nat (only parsing).
Local Notation rhs_ptr := 43%nat (only parsing).
Local Notation dst_col_ptr := 44%nat (only parsing).
Local Notation dst_ptr := 45%nat (only parsing).
Local Notation row := 46%nat (only parsing).
Local Notation col := 47%nat (only parsing).
Local Notation params := 48%nat (only parsing).
Local Notation dst_rows := 49%nat (only parsing).
Local Notation dst_cols := 50%nat (only parsing).
Local Notation dst_tmp_buf := 51%nat (only parsing).
Local Notation dst_type_id := 52%nat (only parsing).

(** kernel_arm64.cc:142-1138, Kernel8bitNeon. *)
Definition kernel8_neon : list instr := [
  Ldr 8 5 params (Imm 24); (* 142: ldr x5, [%[params], #24] *)
  Ldr 4 6 params (Imm 80); (* 143: ldr w6, [%[params], #80] *)
  Ldr 4 7 params (Imm 88); (* 144: ldr w7, [%[params], #88] *)
  Ldr 4 8 params (Imm 92); (* 145: ldr w8, [%[params], #92] *)
  Ldr 4 9 params (Imm 104); (* 146: ldr w9, [%[params], #104] *)
  Ldr 4 10 params (Imm 108); (* 147: ldr w10, [%[params], #108] *)
  Ldr 4 11 params (Imm 112); (* 148: ldr w11, [%[params], #112] *)
  Ldr 4 12 params (Imm 116); (* 149: ldr w12, [%[params], #116] *)
  Ld1 16 0 lhs_ptr (Imm 16); (* 152: ld1 {v0.16b}, [%[lhs_ptr]], #16 *)
  Ld1 16 1 lhs_ptr (Imm 16); (* 153: ld1 {v1.16b}, [%[lhs_ptr]], #16 *)
  Ld1 16 2 lhs_ptr (Imm 16); (* 154: ld1 {v2.16b}, [%[lhs_ptr]], #16 *)
  Ld1 16 3 lhs_ptr (Imm 16); (* 155: ld1 {v3.16b}, [%[lhs_ptr]], #16 *)
  Ld1 16 4 rhs_ptr (Imm 16); (* 156: ld1 {v4.16b}, [%[rhs_ptr]], #16 *)
  Ld1 16 5 rhs_ptr (Imm 16); (* 157: ld1 {v5.16b}, [%[rhs_ptr]], #16 *)
  Ld1 16 6 rhs_ptr (Imm 16); (* 158: ld1 {v6.16b}, [%[rhs_ptr]], #16 *)
  Ld1 16 7 rhs_ptr (Imm 16); (* 159: ld1 {v7.16b}, [%[rhs_ptr]], #16 *)
  Movi 16 0; (* 162: movi v16.4s, #0 *)
  Movi 17 0; (* 163: movi v17.4s, #0 *)
  Movi 18 0; (* 164: movi v18.4s, #0 *)
  Movi 19 0; (* 165: movi v19.4s, #0 *)
  Movi 20 0; (* 166: movi v20.4s, #0 *)
  Movi 21 0; (* 167: movi v21.4s, #0 *)
  Movi 22 0; (* 168: movi v22.4s, #0 *)
  Movi 23 0; (* 169: movi v23.4s, #0 *)
  Movi 24 0; (* 170: movi v24.4s, #0 *)
  Movi 25 0; (* 171: movi v25.4s, #0 *)
  Movi 26 0; (* 172: movi v26.4s, #0 *)
  Movi 27 0; (* 173: movi v27.4s, #0 *)
  Movi 28 0; (* 174: movi v28.4s, #0 *)
  Movi 29 0; (* 175: movi v29.4s, #0 *)
  Movi 30 0; (* 176: movi v30.4s, #0 *)
  Movi 31 0; (* 177: movi v31.4s, #0 *)
  Mov W 1 (Imm 16); (* 182: mov w1, #16 *)
  Smull 8 0 4; (* 186: smull    v8.8h,  v0.8b,  v4.8b *)
  Smull 9 1 4; (* 187: smull    v9.8h,  v1.8b,  v4.8b *)
  Smull 10 2 4; (* 188: smull    v10.8h,  v2.8b,  v4.8b *)
  Smull 11 3 4; (* 189: smull    v11.8h,  v3.8b,  v4.8b *)
  Smull 12 0 5; (* 190: smull    v12.8h,  v0.8b,  v5.8b *)
  Smull 13 1 5; (* 191: smull    v13.8h,  v1.8b,  v5.8b *)
  Smull 14 2 5; (* 192: smull    v14.8h,  v2.8b,  v5.8b *)
  Smull 15 3 5; (* 193: smull    v15.8h,  v3.8b,  v5.8b *)
  Smlal2 8 0 4; (* 199: smlal2   v8.8h,  v0.16b,  v4.16b *)
  Smlal2 9 1 4; (* 200: smlal2   v9.8h,  v1.16b,  v4.16b *)
  Smlal2 10 2 4; (* 201: smlal2   v10.8h,  v2.16b,  v4.16b *)
  Smlal2 11 3 4; (* 202: smlal2   v11.8h,  v3.16b,  v4.16b *)
  Smlal2 12 0 5; (* 203: smlal2   v12.8h,  v0.16b,  v5.16b *)
  Smlal2 13 1 5; (* 204: smlal2   v13.8h,  v1.16b,  v5.16b *)
  Smlal2 14 2 5; (* 205: smlal2   v14.8h,  v2.16b,  v5.16b *)
  Smlal2 15 3 5; (* 206: smlal2   v15.8h,  v3.16b,  v5.16b *)
  Label 1; (* 211: 1: *)
  Cmp W 1 (Reg 12); (* 215: cmp w1, w12 *)
  B EQ (Fwd 79); (* 216: beq 79f *)
  Label 2; (* 218: 2: *)
  Sadalp 2 16 8; (* 222: sadalp  v16.4s, v8.8h *)
  Ld1 16 4 rhs_ptr (Imm 16); (* 223: ld1 {v4.16b}, [%[rhs_ptr]], #16 *)
  Smull 8 0 6; (* 224: smull    v8.8h,  v0.8b,  v6.8b *)
  Sadalp 2 17 9; (* 225: sadalp  v17.4s, v9.8h *)
  Ld1 16 5 rhs_ptr (Imm 16); (* 226: ld1 {v5.16b}, [%[rhs_ptr]], #16 *)
  Smull 9 1 6; (* 227: smull    v9.8h,  v1.8b,  v6.8b *)
  Sadalp 2 18 10; (* 228: sadalp  v18.4s, v10.8h *)
  Smull 10 2 6; (* 229: smull    v10.8h,  v2.8b,  v6.8b *)
  Sadalp 2 19 11; (* 230: sadalp  v19.4s, v11.8h *)
  Smull 11 3 6; (* 231: smull    v11.8h,  v3.8b,  v6.8b *)
  Sadalp 2 20 12; (* 232: sadalp  v20.4s, v12.8h *)
  Smull 12 0 7; (* 233: smull    v12.8h,  v0.8b,  v7.8b *)
  Sadalp 2 21 13; (* 234: sadalp  v21.4s, v13.8h *)
  Smull 13 1 7; (* 235: smull    v13.8h,  v1.8b,  v7.8b *)
  Sadalp 2 22 14; (* 236: sadalp  v22.4s, v14.8h *)
  Smull 14 2 7; (* 237: smull    v14.8h,  v2.8b,  v7.8b *)
  Sadalp 2 23 15; (* 238: sadalp  v23.4s, v15.8h *)
  Smull 15 3 7; (* 239: smull    v15.8h,  v3.8b,  v7.8b *)
  Smlal2 8 0 6; (* 245: smlal2   v8.8h,  v0.16b,  v6.16b *)
  Smlal2 9 1 6; (* 246: smlal2   v9.8h,  v1.16b,  v6.16b *)
  Smlal2 10 2 6; (* 247: smlal2   v10.8h,  v2.16b,  v6.16b *)
  Smlal2 11 3 6; (* 248: smlal2   v11.8h,  v3.16b,  v6.16b *)
  Ld1 16 6 rhs_ptr (Imm 16); (* 250: ld1 {v6.16b}, [%[rhs_ptr]], #16 *)
  Smlal2 12 0 7; (* 252: smlal2   v12.8h,  v0.16b,  v7.16b *)
  Ld1 16 0 lhs_ptr (Imm 16); (* 253: ld1 {v0.16b}, [%[lhs_ptr]], #16 *)
  Smlal2 13 1 7; (* 254: smlal2   v13.8h,  v1.16b,  v7.16b *)
  Ld1 16 1 lhs_ptr (Imm 16); (* 255: ld1 {v1.16b}, [%[lhs_ptr]], #16 *)
  Smlal2 14 2 7; (* 256: smlal2   v14.8h,  v2.16b,  v7.16b *)
  Ld1 16 2 lhs_ptr (Imm 16); (* 257: ld1 {v2.16b}, [%[lhs_ptr]], #16 *)
  Smlal2 15 3 7; (* 258: smlal2   v15.8h,  v3.16b,  v7.16b *)
  Ld1 16 3 lhs_ptr (Imm 16); (* 259: ld1 {v3.16b}, [%[lhs_ptr]], #16 *)
  Sadalp 2 24 8; (* 261: sadalp  v24.4s, v8.8h *)
  Smull 8 0 4; (* 262: smull    v8.8h,  v0.8b,  v4.8b *)
  Sadalp 2 25 9; (* 263: sadalp  v25.4s, v9.8h *)
  Ld1 16 7 rhs_ptr (Imm 16); (* 264: ld1 {v7.16b}, [%[rhs_ptr]], #16 *)
  Smull 9 1 4; (* 265: smull    v9.8h,  v1.8b,  v4.8b *)
  Sadalp 2 26 10; (* 266: sadalp  v26.4s, v10.8h *)
  Smull 10 2 4; (* 267: smull    v10.8h,  v2.8b,  v4.8b *)
  Sadalp 2 27 11; (* 268: sadalp  v27.4s, v11.8h *)
  Smull 11 3 4; (* 269: smull    v11.8h,  v3.8b,  v4.8b *)
  Sadalp 2 28 12; (* 270: sadalp  v28.4s, v12.8h *)
  Smull 12 0 5; (* 271: smull    v12.8h,  v0.8b,  v5.8b *)
  Sadalp 2 29 13; (* 272: sadalp  v29.4s, v13.8h *)
  Smull 13 1 5; (* 273: smull    v13.8h,  v1.8b,  v5.8b *)
  Sadalp 2 30 14; (* 274: sadalp  v30.4s, v14.8h *)
  Smull 14 2 5; (* 275: smull    v14.8h,  v2.8b,  v5.8b *)
  Sadalp 2 31 15; (* 276: sadalp  v31.4s, v15.8h *)
  Smull 15 3 5; (* 277: smull    v15.8h,  v3.8b,  v5.8b *)
  Smlal2 8 0 4; (* 283: smlal2   v8.8h,  v0.16b,  v4.16b *)
  Smlal2 9 1 4; (* 284: smlal2   v9.8h,  v1.16b,  v4.16b *)
  Smlal2 10 2 4; (* 285: smlal2   v10.8h,  v2.16b,  v4.16b *)
  Smlal2 11 3 4; (* 286: smlal2   v11.8h,  v3.16b,  v4.16b *)
  Smlal2 12 0 5; (* 288: smlal2   v12.8h,  v0.16b,  v5.16b *)
  Smlal2 13 1 5; (* 289: smlal2   v13.8h,  v1.16b,  v5.16b *)
  Smlal2 14 2 5; (* 290: smlal2   v14.8h,  v2.16b,  v5.16b *)
  Smlal2 15 3 5; (* 291: smlal2   v15.8h,  v3.16b,  v5.16b *)
  Alu AAdd false W 1 1 (Imm 16); (* 296: add w1, w1, #16 *)
  Cmp W 1 (Reg 12); (* 299: cmp w1, w12 *)
  B LT (Back 2); (* 301: blt 2b *)
  Label 79; (* 303: 79: *)
  Sadalp 2 16 8; (* 305: sadalp  v16.4s, v8.8h *)
  Smull 8 0 6; (* 306: smull    v8.8h,  v0.8b,  v6.8b *)
  Sadalp 2 17 9; (* 307: sadalp  v17.4s, v9.8h *)
  Smull 9 1 6; (* 308: smull    v9.8h,  v1.8b,  v6.8b *)
  Sadalp 2 18 10; (* 309: sadalp  v18.4s, v10.8h *)
  Smull 10 2 6; (* 310: smull    v10.8h,  v2.8b,  v6.8b *)
  Sadalp 2 19 11; (* 311: sadalp  v19.4s, v11.8h *)
  Smull 11 3 6; (* 312: smull    v11.8h,  v3.8b,  v6.8b *)
  Sadalp 2 20 12; (* 313: sadalp  v20.4s, v12.8h *)
  Smull 12 0 7; (* 314: smull    v12.8h,  v0.8b,  v7.8b *)
  Sadalp 2 21 13; (* 315: sadalp  v21.4s, v13.8h *)
  Smull 13 1 7; (* 316: smull    v13.8h,  v1.8b,  v7.8b *)
  Sadalp 2 22 14; (* 317: sadalp  v22.4s, v14.8h *)
  Smull 14 2 7; (* 318: smull    v14.8h,  v2.8b,  v7.8b *)
  Sadalp 2 23 15; (* 319: sadalp  v23.4s, v15.8h *)
  Smull 15 3 7; (* 320: smull    v15.8h,  v3.8b,  v7.8b *)
  Smlal2 8 0 6; (* 326: smlal2   v8.8h,  v0.16b,  v6.16b *)
  Smlal2 9 1 6; (* 327: smlal2   v9.8h,  v1.16b,  v6.16b *)
  Smlal2 10 2 6; (* 328: smlal2   v10.8h,  v2.16b,  v6.16b *)
  Smlal2 11 3 6; (* 329: smlal2   v11.8h,  v3.16b,  v6.16b *)
  Smlal2 12 0 7; (* 331: smlal2   v12.8h,  v0.16b,  v7.16b *)
  Smlal2 13 1 7; (* 332: smlal2   v13.8h,  v1.16b,  v7.16b *)
  Smlal2 14 2 7; (* 333: smlal2   v14.8h,  v2.16b,  v7.16b *)
  Smlal2 15 3 7; (* 334: smlal2   v15.8h,  v3.16b,  v7.16b *)
  Sadalp 2 24 8; (* 336: sadalp  v24.4s, v8.8h *)
  Sadalp 2 25 9; (* 337: sadalp  v25.4s, v9.8h *)
  Sadalp 2 26 10; (* 338: sadalp  v26.4s, v10.8h *)
  Sadalp 2 27 11; (* 339: sadalp  v27.4s, v11.8h *)
  Sadalp 2 28 12; (* 340: sadalp  v28.4s, v12.8h *)
  Sadalp 2 29 13; (* 341: sadalp  v29.4s, v13.8h *)
  Sadalp 2 30 14; (* 342: sadalp  v30.4s, v14.8h *)
  Sadalp 2 31 15; (* 343: sadalp  v31.4s, v15.8h *)
  V2 (Addp 4) 16 16 17; (* 356: addp v16.4s, v16.4s, v17.4s *)
  V2 (Addp 4) 18 18 19; (* 357: addp v18.4s, v18.4s, v19.4s *)
  V2 (Addp 4) 20 20 21; (* 358: addp v20.4s, v20.4s, v21.4s *)
  V2 (Addp 4) 22 22 23; (* 359: addp v22.4s, v22.4s, v23.4s *)
  V2 (Addp 4) 24 24 25; (* 360: addp v24.4s, v24.4s, v25.4s *)
  V2 (Addp 4) 26 26 27; (* 361: addp v26.4s, v26.4s, v27.4s *)
  V2 (Addp 4) 28 28 29; (* 362: addp v28.4s, v28.4s, v29.4s *)
  V2 (Addp 4) 30 30 31; (* 363: addp v30.4s, v30.4s, v31.4s *)
  V2 (Addp 4) 16 16 18; (* 367: addp v16.4s, v16.4s, v18.4s *)
  V2 (Addp 4) 17 20 22; (* 368: addp v17.4s, v20.4s, v22.4s *)
  V2 (Addp 4) 18 24 26; (* 369: addp v18.4s, v24.4s, v26.4s *)
  V2 (Addp 4) 19 28 30; (* 370: addp v19.4s, v28.4s, v30.4s *)
  Cmp W row (Reg 7); (* 378: cmp %w[row], w7 *)
  B GE (Fwd 4); (* 379: bge 4f *)
  Alu AAdd false X lhs_col_ptr lhs_col_ptr (Lsl 9 2); (* 381: add %[lhs_col_ptr], %[lhs_col_ptr], x9, lsl #2 *)
  B Always (Fwd 5); (* 382: b 5f *)
  Label 4; (* 383: 4: *)
  Mov X lhs_col_ptr (Reg 5); (* 384: mov %[lhs_col_ptr], x5 *)
  Cmp W col (Reg 8); (* 392: cmp %w[col], w8 *)
  B GE (Fwd 5); (* 393: bge 5f *)
  Alu AAdd false X rhs_col_ptr rhs_col_ptr (Lsl 10 2); (* 395: add %[rhs_col_ptr], %[rhs_col_ptr], x10, lsl #2 *)
  Label 5; (* 396: 5: *)
  Mov X lhs_ptr (Reg lhs_col_ptr); (* 400: mov %[lhs_ptr], %[lhs_col_ptr] *)
  Mov X rhs_ptr (Reg rhs_col_ptr); (* 401: mov %[rhs_ptr], %[rhs_col_ptr] *)
  Movi 8 255; (* 404: mvni v8.4s, #0 *)
  Ldr 4 4 params (Imm 72); (* 405: ldr w4, [%[params], #72] *)
  Ldr 4 3 params (Imm 76); (* 406: ldr w3, [%[params], #76] *)
  Ins 2 13 4 4; (* 407: ins v13.h[4], w4 *)
  Ldr 8 4 params (Imm 32); (* 408: ldr x4, [%[params], #32] *)
  Ldr 1 6 params (Imm 128); (* 409: ldrb w6, [%[params], #128] *)
  Dup 4 4 9 3; (* 410: dup v9.4s, w3 *)
  Ldr 8 1 params (Imm 0); (* 415: ldr x1, [%[params], #0] *)
  Tst W 6 (Imm 32); (* 418: tst w6, #0x20 *)
  Csel W 3 row col EQ; (* 419: csel w3, %w[row], %w[col], eq *)
  Alu AAdd false X 5 1 (Lsl 3 2); (* 422: add x5, x1, x3, lsl #2 *)
  Tst W 6 (Imm 1); (* 426: tst w6, #0x1 *)
  Csel X 1 1 5 EQ; (* 427: csel x1, x1, x5, eq *)
  Ld1 16 14 1 (Imm 0); (* 430: ld1 {v14.4s}, [x1] *)
  Alu AAdd false X 5 4 (Lsl 3 2); (* 433: add x5, x4, x3, lsl #2 *)
  Tst W 6 (Imm 8); (* 434: tst w6, #0x8 *)
  Csel X 4 4 5 EQ; (* 435: csel x4, x4, x5, eq *)
  Ld1 16 15 4 (Imm 0); (* 436: ld1 {v15.4s}, [x4] *)
  Ld1 16 0 lhs_ptr (Imm 16); (* 442: ld1 {v0.16b}, [%[lhs_ptr]], #16 *)
  Ld1 16 1 lhs_ptr (Imm 16); (* 443: ld1 {v1.16b}, [%[lhs_ptr]], #16 *)
  Ld1 16 2 lhs_ptr (Imm 16); (* 444: ld1 {v2.16b}, [%[lhs_ptr]], #16 *)
  Ld1 16 3 lhs_ptr (Imm 16); (* 445: ld1 {v3.16b}, [%[lhs_ptr]], #16 *)
  Ld1 16 4 rhs_ptr (Imm 16); (* 446: ld1 {v4.16b}, [%[rhs_ptr]], #16 *)
  Ld1 16 5 rhs_ptr (Imm 16); (* 447: ld1 {v5.16b}, [%[rhs_ptr]], #16 *)
  Ld1 16 6 rhs_ptr (Imm 16); (* 448: ld1 {v6.16b}, [%[rhs_ptr]], #16 *)
  Ld1 16 7 rhs_ptr (Imm 16); (* 449: ld1 {v7.16b}, [%[rhs_ptr]], #16 *)
  V2 (VAdd 4) 14 14 9; (* 453: add v14.4s, v14.4s, v9.4s *)
  Tst W 6 (Imm 32); (* 458: tst w6, #0x20 *)
  B NE (Fwd 6); (* 459: bne 6f *)
  V2 (VAdd 4) 16 16 14; (* 461: add v16.4s, v16.4s, v14.4s *)
  V2 (VAdd 4) 17 17 14; (* 462: add v17.4s, v17.4s, v14.4s *)
  V2 (VAdd 4) 18 18 14; (* 463: add v18.4s, v18.4s, v14.4s *)
  V2 (VAdd 4) 19 19 14; (* 464: add v19.4s, v19.4s, v14.4s *)
  B Always (Fwd 7); (* 465: b 7f *)
  Label 6; (* 467: 6: *)
  DupLane 4 4 20 14 0; (* 469: dup v20.4s, v14.s[0] *)
  DupLane 4 4 21 14 1; (* 470: dup v21.4s, v14.s[1] *)
  DupLane 4 4 22 14 2; (* 471: dup v22.4s, v14.s[2] *)
  DupLane 4 4 23 14 3; (* 472: dup v23.4s, v14.s[3] *)
  V2 (VAdd 4) 16 16 20; (* 473: add v16.4s, v16.4s, v20.4s *)
  V2 (VAdd 4) 17 17 21; (* 474: add v17.4s, v17.4s, v21.4s *)
  V2 (VAdd 4) 18 18 22; (* 475: add v18.4s, v18.4s, v22.4s *)
  V2 (VAdd 4) 19 19 23; (* 476: add v19.4s, v19.4s, v23.4s *)
  Label 7; (* 477: 7: *)
  Tst W 6 (Imm 4); (* 479: tst w6, #0x4 *)
  B EQ (Fwd 401); (* 480: beq 401f *)
  Ldr 8 3 params (Imm 16); (* 481: ldr x3, [%[params], #16] *)
  Alu AAdd false X 3 3 (Lsl col 2); (* 482: add x3, x3, %x[col], lsl #2 *)
  Ld1 16 14 3 (Imm 0); (* 483: ld1 {v14.4s}, [x3] *)
  Ldr 4 5 params (Imm 64); (* 484: ldr w5, [%[params], #64] *)
  Dup 4 4 10 5; (* 485: dup v10.4s, w5 *)
  MlsLane 16 10 14 0; (* 488: mls v16.4s, v10.4s, v14.s[0] *)
  MlsLane 17 10 14 1; (* 489: mls v17.4s, v10.4s, v14.s[1] *)
  MlsLane 18 10 14 2; (* 490: mls v18.4s, v10.4s, v14.s[2] *)
  MlsLane 19 10 14 3; (* 491: mls v19.4s, v10.4s, v14.s[3] *)
  Label 401; (* 492: 401: *)
  Tst W 6 (Imm 2); (* 494: tst w6, #0x2 *)
  B EQ (Fwd 402); (* 495: beq 402f *)
  Ldr 8 2 params (Imm 8); (* 496: ldr x2, [%[params], #8] *)
  Alu AAdd false X 2 2 (Lsl row 2); (* 497: add x2, x2, %x[row], lsl #2 *)
  Ldr 4 5 params (Imm 68); (* 498: ldr w5, [%[params], #68] *)
  Ld1 16 11 2 (Imm 0); (* 500: ld1 {v11.4s}, [x2] *)
  Ins 4 13 1 5; (* 501: ins v13.s[1], w5 *)
  MulLane 11 11 13 1; (* 503: mul v11.4s, v11.4s, v13.s[1] *)
  V2 (VSub 4) 16 16 11; (* 506: sub v16.4s, v16.4s, v11.4s *)
  V2 (VSub 4) 17 17 11; (* 507: sub v17.4s, v17.4s, v11.4s *)
  V2 (VSub 4) 18 18 11; (* 508: sub v18.4s, v18.4s, v11.4s *)
  V2 (VSub 4) 19 19 11; (* 509: sub v19.4s, v19.4s, v11.4s *)
  Cmp W dst_type_id (Imm 4); (* 513: cmp %w[dst_type_id], #4 *)
  B EQ (Fwd 94); (* 514: beq 94f *)
  Label 402; (* 516: 402: *)
  Ldr 8 1 params (Imm 40); (* 526: ldr x1, [%[params], #40] *)
  Tst W 6 (Imm 32); (* 528: tst w6, #0x20 *)
  Csel W 3 row col EQ; (* 529: csel w3, %w[row], %w[col], eq *)
  Tst W 6 (Imm 8); (* 531: tst w6, #0x8 *)
  Alu AAdd false X 5 1 (Lsl 3 2); (* 532: add x5, x1, x3, lsl #2 *)
  Csel X 1 1 5 EQ; (* 533: csel x1, x1, x5, eq *)
  Ld1 16 14 1 (Imm 0); (* 535: ld1 {v14.4s}, [x1] *)
  V2 (Smin 4) 11 8 14; (* 537: smin v11.4s, v8.4s, v14.4s *)
  V2 (VSub 4) 12 14 11; (* 538: sub v12.4s, v14.4s, v11.4s *)
  Tst W 6 (Imm 32); (* 541: tst w6, #0x20 *)
  B NE (Fwd 8); (* 542: bne 8f *)
  V2 (Sshl 4) 16 16 12; (* 546: sshl v16.4s, v16.4s, v12.4s *)
  V2 (Sshl 4) 17 17 12; (* 547: sshl v17.4s, v17.4s, v12.4s *)
  V2 (Sshl 4) 18 18 12; (* 548: sshl v18.4s, v18.4s, v12.4s *)
  V2 (Sshl 4) 19 19 12; (* 549: sshl v19.4s, v19.4s, v12.4s *)
  V2 (Sqdmulh 4) 16 16 15; (* 552: sqdmulh v16.4s, v16.4s, v15.4s *)
  V2 (Sqdmulh 4) 17 17 15; (* 553: sqdmulh v17.4s, v17.4s, v15.4s *)
  V2 (Sqdmulh 4) 18 18 15; (* 554: sqdmulh v18.4s, v18.4s, v15.4s *)
  V2 (Sqdmulh 4) 19 19 15; (* 555: sqdmulh v19.4s, v19.4s, v15.4s *)
  V2 (Srshl 4) 16 16 11; (* 558: srshl v16.4s, v16.4s, v11.4s *)
  V2 (Srshl 4) 17 17 11; (* 559: srshl v17.4s, v17.4s, v11.4s *)
  V2 (Srshl 4) 18 18 11; (* 560: srshl v18.4s, v18.4s, v11.4s *)
  V2 (Srshl 4) 19 19 11; (* 561: srshl v19.4s, v19.4s, v11.4s *)
  B Always (Fwd 9); (* 562: b 9f *)
  Label 8; (* 564: 8: *)
  DupLane 4 4 20 12 0; (* 568: dup v20.4s, v12.s[0] *)
  DupLane 4 4 21 12 1; (* 569: dup v21.4s, v12.s[1] *)
  DupLane 4 4 22 12 2; (* 570: dup v22.4s, v12.s[2] *)
  DupLane 4 4 23 12 3; (* 571: dup v23.4s, v12.s[3] *)
  V2 (Sshl 4) 16 16 20; (* 572: sshl v16.4s, v16.4s, v20.4s *)
  V2 (Sshl 4) 17 17 21; (* 573: sshl v17.4s, v17.4s, v21.4s *)
  V2 (Sshl 4) 18 18 22; (* 574: sshl v18.4s, v18.4s, v22.4s *)
  V2 (Sshl 4) 19 19 23; (* 575: sshl v19.4s, v19.4s, v23.4s *)
  SqdmulhLane 16 16 15 0; (* 578: sqdmulh v16.4s, v16.4s, v15.s[0] *)
  SqdmulhLane 17 17 15 1; (* 579: sqdmulh v17.4s, v17.4s, v15.s[1] *)
  SqdmulhLane 18 18 15 2; (* 580: sqdmulh v18.4s, v18.4s, v15.s[2] *)
  SqdmulhLane 19 19 15 3; (* 581: sqdmulh v19.4s, v19.4s, v15.s[3] *)
  DupLane 4 4 20 11 0; (* 584: dup v20.4s, v11.s[0] *)
  DupLane 4 4 21 11 1; (* 585: dup v21.4s, v11.s[1] *)
  DupLane 4 4 22 11 2; (* 586: dup v22.4s, v11.s[2] *)
  DupLane 4 4 23 11 3; (* 587: dup v23.4s, v11.s[3] *)
  V2 (Srshl 4) 16 16 20; (* 588: srshl v16.4s, v16.4s, v20.4s *)
  V2 (Srshl 4) 17 17 21; (* 589: srshl v17.4s, v17.4s, v21.4s *)
  V2 (Srshl 4) 18 18 22; (* 590: srshl v18.4s, v18.4s, v22.4s *)
  V2 (Srshl 4) 19 19 23; (* 591: srshl v19.4s, v19.4s, v23.4s *)
  Label 9; (* 592: 9: *)
  Cmp W dst_type_id (Imm 3); (* 594: cmp %w[dst_type_id], #3 *)
  B EQ (Fwd 93); (* 595: beq 93f *)
  Cmp W dst_type_id (Imm 2); (* 596: cmp %w[dst_type_id], #2 *)
  B EQ (Fwd 92); (* 597: beq 92f *)
  Label 91; (* 599: 91: *)
  Narrow false false 2 16 16; (* 602: sqxtn v16.4h, v16.4s *)
  Narrow false true 2 16 17; (* 603: sqxtn2 v16.8h, v17.4s *)
  Narrow false false 2 17 18; (* 604: sqxtn v17.4h, v18.4s *)
  Narrow false true 2 17 19; (* 605: sqxtn2 v17.8h, v19.4s *)
  Movi 18 0; (* 610: movi v18.4s, #0 *)
  Movi 19 0; (* 611: movi v19.4s, #0 *)
  Movi 20 0; (* 612: movi v20.4s, #0 *)
  Movi 21 0; (* 613: movi v21.4s, #0 *)
  Movi 22 0; (* 614: movi v22.4s, #0 *)
  Movi 23 0; (* 615: movi v23.4s, #0 *)
  Movi 24 0; (* 616: movi v24.4s, #0 *)
  Movi 25 0; (* 617: movi v25.4s, #0 *)
  Movi 26 0; (* 618: movi v26.4s, #0 *)
  Movi 27 0; (* 619: movi v27.4s, #0 *)
  Movi 28 0; (* 620: movi v28.4s, #0 *)
  Movi 29 0; (* 621: movi v29.4s, #0 *)
  Movi 30 0; (* 622: movi v30.4s, #0 *)
  Movi 31 0; (* 623: movi v31.4s, #0 *)
  DupLane 2 8 14 13 4; (* 626: dup v14.8h, v13.h[4] *)
  V2 (Sqadd 2) 16 16 14; (* 627: sqadd v16.8h, v16.8h, v14.8h *)
  V2 (Sqadd 2) 17 17 14; (* 628: sqadd v17.8h, v17.8h, v14.8h *)
  Narrow true false 1 16 16; (* 631: sqxtun v16.8b, v16.8h *)
  Narrow true true 1 16 17; (* 632: sqxtun2 v16.16b, v17.8h *)
  Ldr 1 2 params (Imm 120); (* 635: ldrb w2, [%[params], #120] *)
  Ldr 1 3 params (Imm 124); (* 636: ldrb w3, [%[params], #124] *)
  Dup 1 16 14 2; (* 637: dup v14.16b, w2 *)
  Dup 1 16 15 3; (* 638: dup v15.16b, w3 *)
  V2 (Umax 1) 16 16 14; (* 641: umax v16.16b, v16.16b, v14.16b *)
  V2 (Umin 1) 16 16 15; (* 643: umin v16.16b, v16.16b, v15.16b *)
  Alu ASub false W 1 dst_rows (Reg row); (* 650: sub w1, %w[dst_rows], %w[row] *)
  Alu ASub false W 2 dst_cols (Reg col); (* 651: sub w2, %w[dst_cols], %w[col] *)
  Mov W 3 (Imm 4); (* 652: mov w3, #4 *)
  Cmp W 1 (Imm 4); (* 653: cmp w1, #4 *)
  Csel W 1 1 3 LE; (* 655: csel w1, w1, w3, le *)
  Cmp W 2 (Imm 4); (* 656: cmp w2, #4 *)
  Csel W 2 2 3 LE; (* 658: csel w2, w2, w3, le *)
  Cmp W 1 (Reg 3); (* 661: cmp w1, w3 *)
  Ccmp W 2 (Reg 3) EQ; (* 662: ccmp w2, w3, 0, eq *)
  Mov X 4 (Reg dst_ptr); (* 663: mov x4, %[dst_ptr] *)
  B EQ (Fwd 30); (* 665: beq 30f *)
  St1 16 16 dst_tmp_buf (Imm 0); (* 668: st1 {v16.16b}, [%[dst_tmp_buf]] *)
  Mov X 3 (Reg dst_tmp_buf); (* 670: mov x3, %[dst_tmp_buf] *)
  Mov W 6 (Imm 0); (* 671: mov w6, #0 *)
  Label 50; (* 672: 50: *)
  Nop; (* 673: prfm pstl1strm, [x4] *)
  Mov W 5 (Imm 0); (* 674: mov w5, #0 *)
  Label 51; (* 675: 51: *)
  Ldr 1 7 3 (Uxtw 5); (* 676: ldrb w7, [x3, w5, uxtw] *)
  Str 1 7 4 (Uxtw 5); (* 677: strb w7, [x4, w5, uxtw] *)
  Alu AAdd false W 5 5 (Imm 1); (* 678: add w5, w5, #1 *)
  Cmp W 5 (Reg 1); (* 679: cmp w5, w1 *)
  B LT (Back 51); (* 680: blt 51b *)
  Alu AAdd false W 6 6 (Imm 1); (* 681: add w6, w6, #1 *)
  Alu AAdd false X 3 3 (Imm 4); (* 682: add x3, x3, #4 *)
  Alu AAdd false X 4 4 (Reg 11); (* 683: add x4, x4, x11 *)
  Cmp W 6 (Reg 2); (* 684: cmp w6, w2 *)
  B LT (Back 50); (* 685: blt 50b *)
  B Always (Fwd 31); (* 686: b 31f *)
  Label 30; (* 687: 30: *)
  Nop; (* 689: prfm pstl1strm, [x4] *)
  Mov X 3 (Reg 4); (* 690: mov x3, x4 *)
  St1Lane 1 16 0 3 (Imm 1); (* 691: st1 {v16.b}[0], [x3], #1 *)
  Alu AAdd false X 4 4 (Reg 11); (* 692: add x4, x4, x11 *)
  St1Lane 1 16 1 3 (Imm 1); (* 693: st1 {v16.b}[1], [x3], #1 *)
  St1Lane 1 16 2 3 (Imm 1); (* 694: st1 {v16.b}[2], [x3], #1 *)
  St1Lane 1 16 3 3 (Imm 1); (* 695: st1 {v16.b}[3], [x3], #1 *)
  Nop; (* 696: prfm pstl1strm, [x4] *)
  Mov X 3 (Reg 4); (* 697: mov x3, x4 *)
  St1Lane 1 16 4 3 (Imm 1); (* 698: st1 {v16.b}[4], [x3], #1 *)
  Alu AAdd false X 4 4 (Reg 11); (* 699: add x4, x4, x11 *)
  St1Lane 1 16 5 3 (Imm 1); (* 700: st1 {v16.b}[5], [x3], #1 *)
  St1Lane 1 16 6 3 (Imm 1); (* 701: st1 {v16.b}[6], [x3], #1 *)
  St1Lane 1 16 7 3 (Imm 1); (* 702: st1 {v16.b}[7], [x3], #1 *)
  Nop; (* 703: prfm pstl1strm, [x4] *)
  Mov X 3 (Reg 4); (* 704: mov x3, x4 *)
  St1Lane 1 16 8 3 (Imm 1); (* 705: st1 {v16.b}[8], [x3], #1 *)
  Alu AAdd false X 4 4 (Reg 11); (* 706: add x4, x4, x11 *)
  St1Lane 1 16 9 3 (Imm 1); (* 707: st1 {v16.b}[9], [x3], #1 *)
  St1Lane 1 16 10 3 (Imm 1); (* 708: st1 {v16.b}[10], [x3], #1 *)
  St1Lane 1 16 11 3 (Imm 1); (* 709: st1 {v16.b}[11], [x3], #1 *)
  Nop; (* 710: prfm pstl1strm, [x4] *)
  Mov X 3 (Reg 4); (* 711: mov x3, x4 *)
  St1Lane 1 16 12 3 (Imm 1); (* 712: st1 {v16.b}[12], [x3], #1 *)
  Alu AAdd false X 4 4 (Reg 11); (* 713: add x4, x4, x11 *)
  St1Lane 1 16 13 3 (Imm 1); (* 714: st1 {v16.b}[13], [x3], #1 *)
  St1Lane 1 16 14 3 (Imm 1); (* 715: st1 {v16.b}[14], [x3], #1 *)
  St1Lane 1 16 15 3 (Imm 1); (* 716: st1 {v16.b}[15], [x3], #1 *)
  Label 31; (* 717: 31: *)
  Alu AAdd false X dst_ptr dst_ptr (Imm 4); (* 719: add %[dst_ptr], %[dst_ptr], #4 *)
  Movi 16 0; (* 721: movi v16.4s, #0 *)
  Movi 17 0; (* 722: movi v17.4s, #0 *)
  B Always (Fwd 99); (* 724: b 99f *)
  Label 92; (* 726: 92: *)
  Narrow false false 2 16 16; (* 729: sqxtn v16.4h, v16.4s *)
  Narrow false true 2 16 17; (* 730: sqxtn2 v16.8h, v17.4s *)
  Narrow false false 2 17 18; (* 731: sqxtn v17.4h, v18.4s *)
  Narrow false true 2 17 19; (* 732: sqxtn2 v17.8h, v19.4s *)
  Movi 18 0; (* 737: movi v18.4s, #0 *)
  Movi 19 0; (* 738: movi v19.4s, #0 *)
  Movi 20 0; (* 739: movi v20.4s, #0 *)
  Movi 21 0; (* 740: movi v21.4s, #0 *)
  Movi 22 0; (* 741: movi v22.4s, #0 *)
  Movi 23 0; (* 742: movi v23.4s, #0 *)
  Movi 24 0; (* 743: movi v24.4s, #0 *)
  Movi 25 0; (* 744: movi v25.4s, #0 *)
  Movi 26 0; (* 745: movi v26.4s, #0 *)
  Movi 27 0; (* 746: movi v27.4s, #0 *)
  Movi 28 0; (* 747: movi v28.4s, #0 *)
  Movi 29 0; (* 748: movi v29.4s, #0 *)
  Movi 30 0; (* 749: movi v30.4s, #0 *)
  Movi 31 0; (* 750: movi v31.4s, #0 *)
  DupLane 2 8 14 13 4; (* 753: dup v14.8h, v13.h[4] *)
  V2 (Sqadd 2) 16 16 14; (* 754: sqadd v16.8h, v16.8h, v14.8h *)
  V2 (Sqadd 2) 17 17 14; (* 755: sqadd v17.8h, v17.8h, v14.8h *)
  Narrow false false 1 16 16; (* 758: sqxtn v16.8b, v16.8h *)
  Narrow false true 1 16 17; (* 759: sqxtn2 v16.16b, v17.8h *)
  Ldr 1 2 params (Imm 120); (* 762: ldrb w2, [%[params], #120] *)
  Ldr 1 3 params (Imm 124); (* 763: ldrb w3, [%[params], #124] *)
  Dup 1 16 14 2; (* 764: dup v14.16b, w2 *)
  Dup 1 16 15 3; (* 765: dup v15.16b, w3 *)
  V2 (Smax 1) 16 16 14; (* 768: smax v16.16b, v16.16b, v14.16b *)
  V2 (Smin 1) 16 16 15; (* 770: smin v16.16b, v16.16b, v15.16b *)
  Alu ASub false W 1 dst_rows (Reg row); (* 777: sub w1, %w[dst_rows], %w[row] *)
  Alu ASub false W 2 dst_cols (Reg col); (* 778: sub w2, %w[dst_cols], %w[col] *)
  Mov W 3 (Imm 4); (* 779: mov w3, #4 *)
  Cmp W 1 (Imm 4); (* 780: cmp w1, #4 *)
  Csel W 1 1 3 LE; (* 782: csel w1, w1, w3, le *)
  Cmp W 2 (Imm 4); (* 783: cmp w2, #4 *)
  Csel W 2 2 3 LE; (* 785: csel w2, w2, w3, le *)
  Cmp W 1 (Reg 3); (* 788: cmp w1, w3 *)
  Ccmp W 2 (Reg 3) EQ; (* 789: ccmp w2, w3, 0, eq *)
  Mov X 4 (Reg dst_ptr); (* 790: mov x4, %[dst_ptr] *)
  B EQ (Fwd 30); (* 792: beq 30f *)
  St1 16 16 dst_tmp_buf (Imm 0); (* 795: st1 {v16.16b}, [%[dst_tmp_buf]] *)
  Mov X 3 (Reg dst_tmp_buf); (* 797: mov x3, %[dst_tmp_buf] *)
  Mov W 6 (Imm 0); (* 798: mov w6, #0 *)
  Label 50; (* 799: 50: *)
  Nop; (* 800: prfm pstl1strm, [x4] *)
  Mov W 5 (Imm 0); (* 801: mov w5, #0 *)
  Label 51; (* 802: 51: *)
  Ldr 1 7 3 (Uxtw 5); (* 803: ldrb w7, [x3, w5, uxtw] *)
  Str 1 7 4 (Uxtw 5); (* 804: strb w7, [x4, w5, uxtw] *)
  Alu AAdd false W 5 5 (Imm 1); (* 805: add w5, w5, #1 *)
  Cmp W 5 (Reg 1); (* 806: cmp w5, w1 *)
  B LT (Back 51); (* 807: blt 51b *)
  Alu AAdd false W 6 6 (Imm 1); (* 808: add w6, w6, #1 *)
  Alu AAdd false X 3 3 (Imm 4); (* 809: add x3, x3, #4 *)
  Alu AAdd false X 4 4 (Reg 11); (* 810: add x4, x4, x11 *)
  Cmp W 6 (Reg 2); (* 811: cmp w6, w2 *)
  B LT (Back 50); (* 812: blt 50b *)
  B Always (Fwd 31); (* 813: b 31f *)
  Label 30; (* 814: 30: *)
  Nop; (* 816: prfm pstl1strm, [x4] *)
  Mov X 3 (Reg 4); (* 817: mov x3, x4 *)
  St1Lane 1 16 0 3 (Imm 1); (* 818: st1 {v16.b}[0], [x3], #1 *)
  Alu AAdd false X 4 4 (Reg 11); (* 819: add x4, x4, x11 *)
  St1Lane 1 16 1 3 (Imm 1); (* 820: st1 {v16.b}[1], [x3], #1 *)
  St1Lane 1 16 2 3 (Imm 1); (* 821: st1 {v16.b}[2], [x3], #1 *)
  St1Lane 1 16 3 3 (Imm 1); (* 822: st1 {v16.b}[3], [x3], #1 *)
  Nop; (* 823: prfm pstl1strm, [x4] *)
  Mov X 3 (Reg 4); (* 824: mov x3, x4 *)
  St1Lane 1 16 4 3 (Imm 1); (* 825: st1 {v16.b}[4], [x3], #1 *)
  Alu AAdd false X 4 4 (Reg 11); (* 826: add x4, x4, x11 *)
  St1Lane 1 16 5 3 (Imm 1); (* 827: st1 {v16.b}[5], [x3], #1 *)
  St1Lane 1 16 6 3 (Imm 1); (* 828: st1 {v16.b}[6], [x3], #1 *)
  St1Lane 1 16 7 3 (Imm 1); (* 829: st1 {v16.b}[7], [x3], #1 *)
  Nop; (* 830: prfm pstl1strm, [x4] *)
  Mov X 3 (Reg 4); (* 831: mov x3, x4 *)
  St1Lane 1 16 8 3 (Imm 1); (* 832: st1 {v16.b}[8], [x3], #1 *)
  Alu AAdd false X 4 4 (Reg 11); (* 833: add x4, x4, x11 *)
  St1Lane 1 16 9 3 (Imm 1); (* 834: st1 {v16.b}[9], [x3], #1 *)
  St1Lane 1 16 10 3 (Imm 1); (* 835: st1 {v16.b}[10], [x3], #1 *)
  St1Lane 1 16 11 3 (Imm 1); (* 836: st1 {v16.b}[11], [x3], #1 *)
  Nop; (* 837: prfm pstl1strm, [x4] *)
  Mov X 3 (Reg 4); (* 838: mov x3, x4 *)
  St1Lane 1 16 12 3 (Imm 1); (* 839: st1 {v16.b}[12], [x3], #1 *)
  Alu AAdd false X 4 4 (Reg 11); (* 840: add x4, x4, x11 *)
  St1Lane 1 16 13 3 (Imm 1); (* 841: st1 {v16.b}[13], [x3], #1 *)
  St1Lane 1 16 14 3 (Imm 1); (* 842: st1 {v16.b}[14], [x3], #1 *)
  St1Lane 1 16 15 3 (Imm 1); (* 843: st1 {v16.b}[15], [x3], #1 *)
  Label 31; (* 844: 31: *)
  Alu AAdd false X dst_ptr dst_ptr (Imm 4); (* 846: add %[dst_ptr], %[dst_ptr], #4 *)
  Movi 16 0; (* 848: movi v16.4s, #0 *)
  Movi 17 0; (* 849: movi v17.4s, #0 *)
  B Always (Fwd 99); (* 851: b 99f *)
  Label 93; (* 853: 93: *)
  DupLane 2 4 14 13 4; (* 856: dup v14.4h, v13.h[4] *)
  Saddw 16 16 14; (* 857: saddw v16.4s, v16.4s, v14.4h *)
  Saddw 17 17 14; (* 858: saddw v17.4s, v17.4s, v14.4h *)
  Saddw 18 18 14; (* 859: saddw v18.4s, v18.4s, v14.4h *)
  Saddw 19 19 14; (* 860: saddw v19.4s, v19.4s, v14.4h *)
  Narrow false false 2 16 16; (* 863: sqxtn v16.4h, v16.4s *)
  Narrow false true 2 16 17; (* 864: sqxtn2 v16.8h, v17.4s *)
  Narrow false false 2 17 18; (* 865: sqxtn v17.4h, v18.4s *)
  Narrow false true 2 17 19; (* 866: sqxtn2 v17.8h, v19.4s *)
  Movi 18 0; (* 871: movi v18.4s, #0 *)
  Movi 19 0; (* 872: movi v19.4s, #0 *)
  Movi 20 0; (* 873: movi v20.4s, #0 *)
  Movi 21 0; (* 874: movi v21.4s, #0 *)
  Movi 22 0; (* 875: movi v22.4s, #0 *)
  Movi 23 0; (* 876: movi v23.4s, #0 *)
  Movi 24 0; (* 877: movi v24.4s, #0 *)
  Movi 25 0; (* 878: movi v25.4s, #0 *)
  Movi 26 0; (* 879: movi v26.4s, #0 *)
  Movi 27 0; (* 880: movi v27.4s, #0 *)
  Movi 28 0; (* 881: movi v28.4s, #0 *)
  Movi 29 0; (* 882: movi v29.4s, #0 *)
  Movi 30 0; (* 883: movi v30.4s, #0 *)
  Movi 31 0; (* 884: movi v31.4s, #0 *)
  Ldr 2 2 params (Imm 120); (* 887: ldrh w2, [%[params], #120] *)
  Ldr 2 3 params (Imm 124); (* 888: ldrh w3, [%[params], #124] *)
  Dup 2 8 14 2; (* 889: dup v14.8h, w2 *)
  Dup 2 8 15 3; (* 890: dup v15.8h, w3 *)
  V2 (Smax 2) 16 16 14; (* 893: smax v16.8h, v16.8h, v14.8h *)
  V2 (Smax 2) 17 17 14; (* 894: smax v17.8h, v17.8h, v14.8h *)
  V2 (Smin 2) 16 16 15; (* 896: smin v16.8h, v16.8h, v15.8h *)
  V2 (Smin 2) 17 17 15; (* 897: smin v17.8h, v17.8h, v15.8h *)
  Alu ASub false W 1 dst_rows (Reg row); (* 904: sub w1, %w[dst_rows], %w[row] *)
  Alu ASub false W 2 dst_cols (Reg col); (* 905: sub w2, %w[dst_cols], %w[col] *)
  Mov W 3 (Imm 4); (* 906: mov w3, #4 *)
  Cmp W 1 (Imm 4); (* 907: cmp w1, #4 *)
  Csel W 1 1 3 LE; (* 909: csel w1, w1, w3, le *)
  Cmp W 2 (Imm 4); (* 910: cmp w2, #4 *)
  Csel W 2 2 3 LE; (* 912: csel w2, w2, w3, le *)
  Cmp W 1 (Reg 3); (* 915: cmp w1, w3 *)
  Ccmp W 2 (Reg 3) EQ; (* 916: ccmp w2, w3, 0, eq *)
  Mov X 4 (Reg dst_ptr); (* 917: mov x4, %[dst_ptr] *)
  B EQ (Fwd 30); (* 919: beq 30f *)
  StrQ 16 dst_tmp_buf (Imm 0); (* 922: str q16, [%[dst_tmp_buf], #0] *)
  StrQ 17 dst_tmp_buf (Imm 16); (* 923: str q17, [%[dst_tmp_buf], #16] *)
  Mov X 3 (Reg dst_tmp_buf); (* 925: mov x3, %[dst_tmp_buf] *)
  Mov W 6 (Imm 0); (* 926: mov w6, #0 *)
  Label 50; (* 927: 50: *)
  Nop; (* 928: prfm pstl1strm, [x4] *)
  Mov W 5 (Imm 0); (* 929: mov w5, #0 *)
  Label 51; (* 930: 51: *)
  Ldr 2 7 3 (Lsl 5 1); (* 931: ldrh w7, [x3, x5, lsl #1] *)
  Str 2 7 4 (Lsl 5 1); (* 932: strh w7, [x4, x5, lsl #1] *)
  Alu AAdd false W 5 5 (Imm 1); (* 933: add w5, w5, #1 *)
  Cmp W 5 (Reg 1); (* 934: cmp w5, w1 *)
  B LT (Back 51); (* 935: blt 51b *)
  Alu AAdd false W 6 6 (Imm 1); (* 936: add w6, w6, #1 *)
  Alu AAdd false X 3 3 (Imm 8); (* 937: add x3, x3, #8 *)
  Alu AAdd false X 4 4 (Reg 11); (* 938: add x4, x4, x11 *)
  Cmp W 6 (Reg 2); (* 939: cmp w6, w2 *)
  B LT (Back 50); (* 940: blt 50b *)
  B Always (Fwd 31); (* 941: b 31f *)
  Label 30; (* 942: 30: *)
  Nop; (* 944: prfm pstl1strm, [x4] *)
  Mov X 3 (Reg 4); (* 945: mov x3, x4 *)
  St1Lane 2 16 0 3 (Imm 2); (* 946: st1 {v16.h}[0], [x3], #2 *)
  Alu AAdd false X 4 4 (Reg 11); (* 947: add x4, x4, x11 *)
  St1Lane 2 16 1 3 (Imm 2); (* 948: st1 {v16.h}[1], [x3], #2 *)
  St1Lane 2 16 2 3 (Imm 2); (* 949: st1 {v16.h}[2], [x3], #2 *)
  St1Lane 2 16 3 3 (Imm 2); (* 950: st1 {v16.h}[3], [x3], #2 *)
  Nop; (* 951: prfm pstl1strm, [x4] *)
  Mov X 3 (Reg 4); (* 952: mov x3, x4 *)
  St1Lane 2 16 4 3 (Imm 2); (* 953: st1 {v16.h}[4], [x3], #2 *)
  Alu AAdd false X 4 4 (Reg 11); (* 954: add x4, x4, x11 *)
  St1Lane 2 16 5 3 (Imm 2); (* 955: st1 {v16.h}[5], [x3], #2 *)
  St1Lane 2 16 6 3 (Imm 2); (* 956: st1 {v16.h}[6], [x3], #2 *)
  St1Lane 2 16 7 3 (Imm 2); (* 957: st1 {v16.h}[7], [x3], #2 *)
  Nop; (* 958: prfm pstl1strm, [x4] *)
  Mov X 3 (Reg 4); (* 959: mov x3, x4 *)
  St1Lane 2 17 0 3 (Imm 2); (* 960: st1 {v17.h}[0], [x3], #2 *)
  Alu AAdd false X 4 4 (Reg 11); (* 961: add x4, x4, x11 *)
  St1Lane 2 17 1 3 (Imm 2); (* 962: st1 {v17.h}[1], [x3], #2 *)
  St1Lane 2 17 2 3 (Imm 2); (* 963: st1 {v17.h}[2], [x3], #2 *)
  St1Lane 2 17 3 3 (Imm 2); (* 964: st1 {v17.h}[3], [x3], #2 *)
  Nop; (* 965: prfm pstl1strm, [x4] *)
  Mov X 3 (Reg 4); (* 966: mov x3, x4 *)
  St1Lane 2 17 4 3 (Imm 2); (* 967: st1 {v17.h}[4], [x3], #2 *)
  Alu AAdd false X 4 4 (Reg 11); (* 968: add x4, x4, x11 *)
  St1Lane 2 17 5 3 (Imm 2); (* 969: st1 {v17.h}[5], [x3], #2 *)
  St1Lane 2 17 6 3 (Imm 2); (* 970: st1 {v17.h}[6], [x3], #2 *)
  St1Lane 2 17 7 3 (Imm 2); (* 971: st1 {v17.h}[7], [x3], #2 *)
  Label 31; (* 972: 31: *)
  Alu AAdd false X dst_ptr dst_ptr (Imm 8); (* 974: add %[dst_ptr], %[dst_ptr], #8 *)
  Movi 16 0; (* 976: movi v16.4s, #0 *)
  Movi 17 0; (* 977: movi v17.4s, #0 *)
  B Always (Fwd 99); (* 979: b 99f *)
  Label 94; (* 981: 94: *)
  Movi 20 0; (* 989: movi v20.4s, #0 *)
  Movi 21 0; (* 990: movi v21.4s, #0 *)
  Movi 22 0; (* 991: movi v22.4s, #0 *)
  Movi 23 0; (* 992: movi v23.4s, #0 *)
  Movi 24 0; (* 993: movi v24.4s, #0 *)
  Movi 25 0; (* 994: movi v25.4s, #0 *)
  Movi 26 0; (* 995: movi v26.4s, #0 *)
  Movi 27 0; (* 996: movi v27.4s, #0 *)
  Movi 28 0; (* 997: movi v28.4s, #0 *)
  Movi 29 0; (* 998: movi v29.4s, #0 *)
  Movi 30 0; (* 999: movi v30.4s, #0 *)
  Movi 31 0; (* 1000: movi v31.4s, #0 *)
  Alu ASub false W 1 dst_rows (Reg row); (* 1007: sub w1, %w[dst_rows], %w[row] *)
  Alu ASub false W 2 dst_cols (Reg col); (* 1008: sub w2, %w[dst_cols], %w[col] *)
  Mov W 3 (Imm 4); (* 1009: mov w3, #4 *)
  Cmp W 1 (Imm 4); (* 1010: cmp w1, #4 *)
  Csel W 1 1 3 LE; (* 1012: csel w1, w1, w3, le *)
  Cmp W 2 (Imm 4); (* 1013: cmp w2, #4 *)
  Csel W 2 2 3 LE; (* 1015: csel w2, w2, w3, le *)
  Cmp W 1 (Reg 3); (* 1018: cmp w1, w3 *)
  Ccmp W 2 (Reg 3) EQ; (* 1019: ccmp w2, w3, 0, eq *)
  Mov X 4 (Reg dst_ptr); (* 1020: mov x4, %[dst_ptr] *)
  B EQ (Fwd 30); (* 1022: beq 30f *)
  StrQ 16 dst_tmp_buf (Imm 0); (* 1025: str q16, [%[dst_tmp_buf], #0] *)
  StrQ 17 dst_tmp_buf (Imm 16); (* 1026: str q17, [%[dst_tmp_buf], #16] *)
  StrQ 18 dst_tmp_buf (Imm 32); (* 1027: str q18, [%[dst_tmp_buf], #32] *)
  StrQ 19 dst_tmp_buf (Imm 48); (* 1028: str q19, [%[dst_tmp_buf], #48] *)
  Mov X 3 (Reg dst_tmp_buf); (* 1030: mov x3, %[dst_tmp_buf] *)
  Mov W 6 (Imm 0); (* 1031: mov w6, #0 *)
  Label 50; (* 1032: 50: *)
  Nop; (* 1033: prfm pstl1strm, [x4] *)
  Mov W 5 (Imm 0); (* 1034: mov w5, #0 *)
  Label 51; (* 1035: 51: *)
  Ldr 4 7 3 (Lsl 5 2); (* 1036: ldr w7, [x3, x5, lsl #2] *)
  Str 4 7 4 (Lsl 5 2); (* 1037: str w7, [x4, x5, lsl #2] *)
  Alu AAdd false W 5 5 (Imm 1); (* 1038: add w5, w5, #1 *)
  Cmp W 5 (Reg 1); (* 1039: cmp w5, w1 *)
  B LT (Back 51); (* 1040: blt 51b *)
  Alu AAdd false W 6 6 (Imm 1); (* 1041: add w6, w6, #1 *)
  Alu AAdd false X 3 3 (Imm 16); (* 1042: add x3, x3, #16 *)
  Alu AAdd false X 4 4 (Reg 11); (* 1043: add x4, x4, x11 *)
  Cmp W 6 (Reg 2); (* 1044: cmp w6, w2 *)
  B LT (Back 50); (* 1045: blt 50b *)
  B Always (Fwd 31); (* 1046: b 31f *)
  Label 30; (* 1047: 30: *)
  Nop; (* 1049: prfm pstl1strm, [x4] *)
  Mov X 3 (Reg 4); (* 1050: mov x3, x4 *)
  St1Lane 4 16 0 3 (Imm 4); (* 1051: st1 {v16.s}[0], [x3], #4 *)
  Alu AAdd false X 4 4 (Reg 11); (* 1052: add x4, x4, x11 *)
  St1Lane 4 16 1 3 (Imm 4); (* 1053: st1 {v16.s}[1], [x3], #4 *)
  St1Lane 4 16 2 3 (Imm 4); (* 1054: st1 {v16.s}[2], [x3], #4 *)
  St1Lane 4 16 3 3 (Imm 4); (* 1055: st1 {v16.s}[3], [x3], #4 *)
  Nop; (* 1056: prfm pstl1strm, [x4] *)
  Mov X 3 (Reg 4); (* 1057: mov x3, x4 *)
  St1Lane 4 17 0 3 (Imm 4); (* 1058: st1 {v17.s}[0], [x3], #4 *)
  Alu AAdd false X 4 4 (Reg 11); (* 1059: add x4, x4, x11 *)
  St1Lane 4 17 1 3 (Imm 4); (* 1060: st1 {v17.s}[1], [x3], #4 *)
  St1Lane 4 17 2 3 (Imm 4); (* 1061: st1 {v17.s}[2], [x3], #4 *)
  St1Lane 4 17 3 3 (Imm 4); (* 1062: st1 {v17.s}[3], [x3], #4 *)
  Nop; (* 1063: prfm pstl1strm, [x4] *)
  Mov X 3 (Reg 4); (* 1064: mov x3, x4 *)
  St1Lane 4 18 0 3 (Imm 4); (* 1065: st1 {v18.s}[0], [x3], #4 *)
  Alu AAdd false X 4 4 (Reg 11); (* 1066: add x4, x4, x11 *)
  St1Lane 4 18 1 3 (Imm 4); (* 1067: st1 {v18.s}[1], [x3], #4 *)
  St1Lane 4 18 2 3 (Imm 4); (* 1068: st1 {v18.s}[2], [x3], #4 *)
  St1Lane 4 18 3 3 (Imm 4); (* 1069: st1 {v18.s}[3], [x3], #4 *)
  Nop; (* 1070: prfm pstl1strm, [x4] *)
  Mov X 3 (Reg 4); (* 1071: mov x3, x4 *)
  St1Lane 4 19 0 3 (Imm 4); (* 1072: st1 {v19.s}[0], [x3], #4 *)
  Alu AAdd false X 4 4 (Reg 11); (* 1073: add x4, x4, x11 *)
  St1Lane 4 19 1 3 (Imm 4); (* 1074: st1 {v19.s}[1], [x3], #4 *)
  St1Lane 4 19 2 3 (Imm 4); (* 1075: st1 {v19.s}[2], [x3], #4 *)
  St1Lane 4 19 3 3 (Imm 4); (* 1076: st1 {v19.s}[3], [x3], #4 *)
  Label 31; (* 1077: 31: *)
  Alu AAdd false X dst_ptr dst_ptr (Imm 16); (* 1079: add %[dst_ptr], %[dst_ptr], #16 *)
  Movi 16 0; (* 1081: movi v16.4s, #0 *)
  Movi 17 0; (* 1082: movi v17.4s, #0 *)
  Movi 18 0; (* 1083: movi v18.4s, #0 *)
  Movi 19 0; (* 1084: movi v19.4s, #0 *)
  Label 99; (* 1086: 99: *)
  Smull 8 0 4; (* 1090: smull    v8.8h,  v0.8b,  v4.8b *)
  Smull 9 1 4; (* 1091: smull    v9.8h,  v1.8b,  v4.8b *)
  Smull 10 2 4; (* 1092: smull    v10.8h,  v2.8b,  v4.8b *)
  Smull 11 3 4; (* 1093: smull    v11.8h,  v3.8b,  v4.8b *)
  Smull 12 0 5; (* 1094: smull    v12.8h,  v0.8b,  v5.8b *)
  Smull 13 1 5; (* 1095: smull    v13.8h,  v1.8b,  v5.8b *)
  Smull 14 2 5; (* 1096: smull    v14.8h,  v2.8b,  v5.8b *)
  Smull 15 3 5; (* 1097: smull    v15.8h,  v3.8b,  v5.8b *)
  Smlal2 8 0 4; (* 1098: smlal2   v8.8h,  v0.16b,  v4.16b *)
  Smlal2 9 1 4; (* 1099: smlal2   v9.8h,  v1.16b,  v4.16b *)
  Smlal2 10 2 4; (* 1100: smlal2   v10.8h,  v2.16b,  v4.16b *)
  Smlal2 11 3 4; (* 1101: smlal2   v11.8h,  v3.16b,  v4.16b *)
  Smlal2 12 0 5; (* 1102: smlal2   v12.8h,  v0.16b,  v5.16b *)
  Smlal2 13 1 5; (* 1103: smlal2   v13.8h,  v1.16b,  v5.16b *)
  Smlal2 14 2 5; (* 1104: smlal2   v14.8h,  v2.16b,  v5.16b *)
  Smlal2 15 3 5; (* 1105: smlal2   v15.8h,  v3.16b,  v5.16b *)
  Ldr 8 5 params (Imm 24); (* 1109: ldr x5, [%[params], #24] *)
  Ldr 4 6 params (Imm 80); (* 1110: ldr w6, [%[params], #80] *)
  Ldr 4 7 params (Imm 88); (* 1111: ldr w7, [%[params], #88] *)
  Cmp W row (Reg 7); (* 1117: cmp %w[row], w7 *)
  B EQ (Fwd 20); (* 1118: beq 20f *)
  Alu AAdd false W row row (Imm 4); (* 1120: add %w[row], %w[row], #4 *)
  B Always (Fwd 21); (* 1121: b 21f *)
  Label 20; (* 1122: 20: *)
  Mov W row (Reg 6); (* 1124: mov %w[row], w6 *)
  Alu AAdd false W col col (Imm 4); (* 1125: add %w[col], %w[col], #4 *)
  Alu AAdd false X dst_col_ptr dst_col_ptr (Lsl 11 2); (* 1126: add %[dst_col_ptr], %[dst_col_ptr], x11, lsl #2 *)
  Mov X dst_ptr (Reg dst_col_ptr); (* 1127: mov %[dst_ptr], %[dst_col_ptr] *)
  Label 21; (* 1128: 21: *)
  Cmp W col (Reg 8); (* 1131: cmp %w[col], w8 *)
  Mov W 1 (Imm 16); (* 1136: mov w1, #16 *)
  B LE (Back 1) (* 1138: ble 1b *)
].

(** kernel_arm64.cc:1204-1807, Kernel8bitNeon1Col. *)
Definition kernel8_1col : list instr := [
  Ldr 8 5 params (Imm 24); (* 1204: ldr x5, [%[params], #24] *)
  Ldr 4 6 params (Imm 80); (* 1205: ldr w6, [%[params], #80] *)
  Ldr 4 7 params (Imm 88); (* 1206: ldr w7, [%[params], #88] *)
  Ldr 4 8 params (Imm 92); (* 1207: ldr w8, [%[params], #92] *)
  Ldr 4 9 params (Imm 104); (* 1208: ldr w9, [%[params], #104] *)
  Ldr 4 10 params (Imm 108); (* 1209: ldr w10, [%[params], #108] *)
  Ldr 4 11 params (Imm 112); (* 1210: ldr w11, [%[params], #112] *)
  Ldr 4 12 params (Imm 116); (* 1211: ldr w12, [%[params], #116] *)
  Ld1 16 0 lhs_ptr (Imm 16); (* 1214: ld1 {v0.16b}, [%[lhs_ptr]], #16 *)
  Ld1 16 1 lhs_ptr (Imm 16); (* 1215: ld1 {v1.16b}, [%[lhs_ptr]], #16 *)
  Ld1 16 2 lhs_ptr (Imm 16); (* 1216: ld1 {v2.16b}, [%[lhs_ptr]], #16 *)
  Ld1 16 3 lhs_ptr (Imm 16); (* 1217: ld1 {v3.16b}, [%[lhs_ptr]], #16 *)
  Ld1 16 4 rhs_ptr (Imm 16); (* 1218: ld1 {v4.16b}, [%[rhs_ptr]], #16 *)
  Alu AAdd false X rhs_ptr rhs_ptr (Imm 48); (* 1219: add %[rhs_ptr], %[rhs_ptr], #48 *)
  Movi 16 0; (* 1222: movi v16.4s, #0 *)
  Movi 17 0; (* 1223: movi v17.4s, #0 *)
  Movi 18 0; (* 1224: movi v18.4s, #0 *)
  Movi 19 0; (* 1225: movi v19.4s, #0 *)
  Mov W 1 (Imm 16); (* 1230: mov w1, #16 *)
  Smull 8 0 4; (* 1234: smull    v8.8h,  v0.8b,  v4.8b *)
  Smull 9 1 4; (* 1235: smull    v9.8h,  v1.8b,  v4.8b *)
  Smull 10 2 4; (* 1236: smull    v10.8h,  v2.8b,  v4.8b *)
  Smull 11 3 4; (* 1237: smull    v11.8h,  v3.8b,  v4.8b *)
  Smlal2 8 0 4; (* 1243: smlal2   v8.8h,  v0.16b,  v4.16b *)
  Smlal2 9 1 4; (* 1244: smlal2   v9.8h,  v1.16b,  v4.16b *)
  Smlal2 10 2 4; (* 1245: smlal2   v10.8h,  v2.16b,  v4.16b *)
  Smlal2 11 3 4; (* 1246: smlal2   v11.8h,  v3.16b,  v4.16b *)
  Label 1; (* 1250: 1: *)
  Cmp W 1 (Reg 12); (* 1254: cmp w1, w12 *)
  B EQ (Fwd 79); (* 1255: beq 79f *)
  Label 2; (* 1257: 2: *)
  Sadalp 2 16 8; (* 1261: sadalp  v16.4s, v8.8h *)
  Ld1 16 4 rhs_ptr (Imm 16); (* 1262: ld1 {v4.16b}, [%[rhs_ptr]], #16 *)
  Alu AAdd false X rhs_ptr rhs_ptr (Imm 48); (* 1263: add %[rhs_ptr], %[rhs_ptr], #48 *)
  Sadalp 2 17 9; (* 1264: sadalp  v17.4s, v9.8h *)
  Sadalp 2 18 10; (* 1265: sadalp  v18.4s, v10.8h *)
  Sadalp 2 19 11; (* 1266: sadalp  v19.4s, v11.8h *)
  Ld1 16 0 lhs_ptr (Imm 16); (* 1268: ld1 {v0.16b}, [%[lhs_ptr]], #16 *)
  Ld1 16 1 lhs_ptr (Imm 16); (* 1269: ld1 {v1.16b}, [%[lhs_ptr]], #16 *)
  Ld1 16 2 lhs_ptr (Imm 16); (* 1270: ld1 {v2.16b}, [%[lhs_ptr]], #16 *)
  Ld1 16 3 lhs_ptr (Imm 16); (* 1271: ld1 {v3.16b}, [%[lhs_ptr]], #16 *)
  Smull 8 0 4; (* 1273: smull    v8.8h,  v0.8b,  v4.8b *)
  Smull 9 1 4; (* 1274: smull    v9.8h,  v1.8b,  v4.8b *)
  Smull 10 2 4; (* 1275: smull    v10.8h,  v2.8b,  v4.8b *)
  Smull 11 3 4; (* 1276: smull    v11.8h,  v3.8b,  v4.8b *)
  Smlal2 8 0 4; (* 1282: smlal2   v8.8h,  v0.16b,  v4.16b *)
  Smlal2 9 1 4; (* 1283: smlal2   v9.8h,  v1.16b,  v4.16b *)
  Smlal2 10 2 4; (* 1284: smlal2   v10.8h,  v2.16b,  v4.16b *)
  Smlal2 11 3 4; (* 1285: smlal2   v11.8h,  v3.16b,  v4.16b *)
  Alu AAdd false W 1 1 (Imm 16); (* 1288: add w1, w1, #16 *)
  Cmp W 1 (Reg 12); (* 1291: cmp w1, w12 *)
  B LT (Back 2); (* 1293: blt 2b *)
  Label 79; (* 1295: 79: *)
  Sadalp 2 16 8; (* 1297: sadalp  v16.4s, v8.8h *)
  Sadalp 2 17 9; (* 1298: sadalp  v17.4s, v9.8h *)
  Sadalp 2 18 10; (* 1299: sadalp  v18.4s, v10.8h *)
  Sadalp 2 19 11; (* 1300: sadalp  v19.4s, v11.8h *)
  V2 (Addp 4) 16 16 17; (* 1313: addp v16.4s, v16.4s, v17.4s *)
  V2 (Addp 4) 18 18 19; (* 1314: addp v18.4s, v18.4s, v19.4s *)
  V2 (Addp 4) 16 16 18; (* 1318: addp v16.4s, v16.4s, v18.4s *)
  Cmp W row (Reg 7); (* 1326: cmp %w[row], w7 *)
  B GE (Fwd 4); (* 1327: bge 4f *)
  Alu AAdd false X lhs_col_ptr lhs_col_ptr (Lsl 9 2); (* 1329: add %[lhs_col_ptr], %[lhs_col_ptr], x9, lsl #2 *)
  B Always (Fwd 5); (* 1330: b 5f *)
  Label 4; (* 1331: 4: *)
  Mov X lhs_col_ptr (Reg 5); (* 1332: mov %[lhs_col_ptr], x5 *)
  Cmp W col (Reg 8); (* 1340: cmp %w[col], w8 *)
  B GE (Fwd 5); (* 1341: bge 5f *)
  Alu AAdd false X rhs_col_ptr rhs_col_ptr (Lsl 10 2); (* 1344: add %[rhs_col_ptr], %[rhs_col_ptr], x10, lsl #2 *)
  Label 5; (* 1345: 5: *)
  Mov X lhs_ptr (Reg lhs_col_ptr); (* 1349: mov %[lhs_ptr], %[lhs_col_ptr] *)
  Mov X rhs_ptr (Reg rhs_col_ptr); (* 1350: mov %[rhs_ptr], %[rhs_col_ptr] *)
  Movi 8 255; (* 1353: mvni v8.4s, #0 *)
  Ldr 4 4 params (Imm 72); (* 1354: ldr w4, [%[params], #72] *)
  Ldr 4 3 params (Imm 76); (* 1355: ldr w3, [%[params], #76] *)
  Ins 2 13 4 4; (* 1356: ins v13.h[4], w4 *)
  Ldr 8 4 params (Imm 32); (* 1357: ldr x4, [%[params], #32] *)
  Ldr 1 6 params (Imm 128); (* 1358: ldrb w6, [%[params], #128] *)
  Dup 4 4 9 3; (* 1359: dup v9.4s, w3 *)
  Alu AAdd false X 5 4 (Lsl row 2); (* 1360: add x5, x4, %x[row], lsl #2 *)
  Tst W 6 (Imm 8); (* 1361: tst w6, #0x8 *)
  Csel X 4 4 5 EQ; (* 1362: csel x4, x4, x5, eq *)
  Ld1 16 15 4 (Imm 0); (* 1364: ld1 {v15.4s}, [x4] *)
  Ldr 8 1 params (Imm 0); (* 1369: ldr x1, [%[params], #0] *)
  Alu AAdd false X 5 1 (Lsl row 2); (* 1371: add x5, x1, %x[row], lsl #2 *)
  Tst W 6 (Imm 1); (* 1372: tst w6, #0x1 *)
  Csel X 1 1 5 EQ; (* 1373: csel x1, x1, x5, eq *)
  Ld1 16 14 1 (Imm 0); (* 1376: ld1 {v14.4s}, [x1] *)
  Ld1 16 0 lhs_ptr (Imm 16); (* 1382: ld1 {v0.16b}, [%[lhs_ptr]], #16 *)
  Ld1 16 1 lhs_ptr (Imm 16); (* 1383: ld1 {v1.16b}, [%[lhs_ptr]], #16 *)
  Ld1 16 2 lhs_ptr (Imm 16); (* 1384: ld1 {v2.16b}, [%[lhs_ptr]], #16 *)
  Ld1 16 3 lhs_ptr (Imm 16); (* 1385: ld1 {v3.16b}, [%[lhs_ptr]], #16 *)
  Ld1 16 4 rhs_ptr (Imm 16); (* 1386: ld1 {v4.16b}, [%[rhs_ptr]], #16 *)
  Alu AAdd false X rhs_ptr rhs_ptr (Imm 48); (* 1387: add %[rhs_ptr], %[rhs_ptr], #48 *)
  V2 (VAdd 4) 14 14 9; (* 1391: add v14.4s, v14.4s, v9.4s *)
  V2 (VAdd 4) 16 16 14; (* 1396: add v16.4s, v16.4s, v14.4s *)
  Tst W 6 (Imm 4); (* 1398: tst w6, #0x4 *)
  B EQ (Fwd 401); (* 1399: beq 401f *)
  Ldr 8 3 params (Imm 16); (* 1400: ldr x3, [%[params], #16] *)
  Alu AAdd false X 3 3 (Lsl col 2); (* 1401: add x3, x3, %x[col], lsl #2 *)
  Ld1 16 14 3 (Imm 0); (* 1402: ld1 {v14.4s}, [x3] *)
  Ldr 4 5 params (Imm 64); (* 1403: ldr w5, [%[params], #64] *)
  Dup 4 4 10 5; (* 1404: dup v10.4s, w5 *)
  MlsLane 16 10 14 0; (* 1407: mls v16.4s, v10.4s, v14.s[0] *)
  Label 401; (* 1408: 401: *)
  Tst W 6 (Imm 2); (* 1410: tst w6, #0x2 *)
  B EQ (Fwd 402); (* 1411: beq 402f *)
  Ldr 8 2 params (Imm 8); (* 1412: ldr x2, [%[params], #8] *)
  Alu AAdd false X 2 2 (Lsl row 2); (* 1413: add x2, x2, %x[row], lsl #2 *)
  Ldr 4 5 params (Imm 68); (* 1414: ldr w5, [%[params], #68] *)
  Ld1 16 11 2 (Imm 0); (* 1416: ld1 {v11.4s}, [x2] *)
  Ins 4 13 1 5; (* 1417: ins v13.s[1], w5 *)
  MulLane 11 11 13 1; (* 1419: mul v11.4s, v11.4s, v13.s[1] *)
  V2 (VSub 4) 16 16 11; (* 1422: sub v16.4s, v16.4s, v11.4s *)
  Cmp W dst_type_id (Imm 4); (* 1426: cmp %w[dst_type_id], #4 *)
  B EQ (Fwd 94); (* 1427: beq 94f *)
  Label 402; (* 1429: 402: *)
  Ldr 8 1 params (Imm 40); (* 1439: ldr x1, [%[params], #40] *)
  Tst W 6 (Imm 8); (* 1440: tst w6, #0x8 *)
  Alu AAdd false X 5 1 (Lsl row 2); (* 1441: add x5, x1, %x[row], lsl #2 *)
  Csel X 1 1 5 EQ; (* 1442: csel x1, x1, x5, eq *)
  Ld1 16 14 1 (Imm 0); (* 1444: ld1 {v14.4s}, [x1] *)
  V2 (Smin 4) 11 8 14; (* 1446: smin v11.4s, v8.4s, v14.4s *)
  V2 (VSub 4) 12 14 11; (* 1447: sub v12.4s, v14.4s, v11.4s *)
  V2 (Sshl 4) 16 16 12; (* 1450: sshl v16.4s, v16.4s, v12.4s *)
  V2 (Sqdmulh 4) 16 16 15; (* 1453: sqdmulh v16.4s, v16.4s, v15.4s *)
  V2 (Srshl 4) 16 16 11; (* 1456: srshl v16.4s, v16.4s, v11.4s *)
  Cmp W dst_type_id (Imm 3); (* 1458: cmp %w[dst_type_id], #3 *)
  B EQ (Fwd 93); (* 1459: beq 93f *)
  Cmp W dst_type_id (Imm 2); (* 1460: cmp %w[dst_type_id], #2 *)
  B EQ (Fwd 92); (* 1461: beq 92f *)
  Label 91; (* 1463: 91: *)
  Narrow false false 2 16 16; (* 1467: sqxtn v16.4h, v16.4s *)
  Movi 18 0; (* 1472: movi v18.4s, #0 *)
  Movi 19 0; (* 1473: movi v19.4s, #0 *)
  DupLane 2 8 14 13 4; (* 1476: dup v14.8h, v13.h[4] *)
  V2 (Sqadd 2) 16 16 14; (* 1477: sqadd v16.8h, v16.8h, v14.8h *)
  Narrow true false 1 16 16; (* 1481: sqxtun v16.8b, v16.8h *)
  Ldr 1 2 params (Imm 120); (* 1484: ldrb w2, [%[params], #120] *)
  Ldr 1 3 params (Imm 124); (* 1485: ldrb w3, [%[params], #124] *)
  Dup 1 16 14 2; (* 1486: dup v14.16b, w2 *)
  Dup 1 16 15 3; (* 1487: dup v15.16b, w3 *)
  V2 (Umax 1) 16 16 14; (* 1490: umax v16.16b, v16.16b, v14.16b *)
  V2 (Umin 1) 16 16 15; (* 1492: umin v16.16b, v16.16b, v15.16b *)
  Alu ASub false W 1 dst_rows (Reg row); (* 1499: sub w1, %w[dst_rows], %w[row] *)
  Mov W 3 (Imm 4); (* 1500: mov w3, #4 *)
  Cmp W 1 (Imm 4); (* 1501: cmp w1, #4 *)
  Csel W 1 1 3 LE; (* 1503: csel w1, w1, w3, le *)
  Cmp W 1 (Reg 3); (* 1506: cmp w1, w3 *)
  Mov X 4 (Reg dst_ptr); (* 1508: mov x4, %[dst_ptr] *)
  B EQ (Fwd 30); (* 1510: beq 30f *)
  St1 16 16 dst_tmp_buf (Imm 0); (* 1513: st1 {v16.16b}, [%[dst_tmp_buf]] *)
  Mov X 3 (Reg dst_tmp_buf); (* 1515: mov x3, %[dst_tmp_buf] *)
  Mov W 6 (Imm 0); (* 1516: mov w6, #0 *)
  Label 50; (* 1517: 50: *)
  Nop; (* 1518: prfm pstl1strm, [x4] *)
  Mov W 5 (Imm 0); (* 1519: mov w5, #0 *)
  Label 51; (* 1520: 51: *)
  Ldr 1 7 3 (Uxtw 5); (* 1521: ldrb w7, [x3, w5, uxtw] *)
  Str 1 7 4 (Uxtw 5); (* 1522: strb w7, [x4, w5, uxtw] *)
  Alu AAdd false W 5 5 (Imm 1); (* 1523: add w5, w5, #1 *)
  Cmp W 5 (Reg 1); (* 1524: cmp w5, w1 *)
  B LT (Back 51); (* 1525: blt 51b *)
  B Always (Fwd 31); (* 1526: b 31f *)
  Label 30; (* 1527: 30: *)
  Nop; (* 1529: prfm pstl1strm, [x4] *)
  Mov X 3 (Reg 4); (* 1530: mov x3, x4 *)
  St1Lane 1 16 0 3 (Imm 1); (* 1531: st1 {v16.b}[0], [x3], #1 *)
  St1Lane 1 16 1 3 (Imm 1); (* 1532: st1 {v16.b}[1], [x3], #1 *)
  St1Lane 1 16 2 3 (Imm 1); (* 1533: st1 {v16.b}[2], [x3], #1 *)
  St1Lane 1 16 3 3 (Imm 1); (* 1534: st1 {v16.b}[3], [x3], #1 *)
  Label 31; (* 1535: 31: *)
  Alu AAdd false X dst_ptr dst_ptr (Imm 4); (* 1537: add %[dst_ptr], %[dst_ptr], #4 *)
  Movi 16 0; (* 1539: movi v16.4s, #0 *)
  Movi 17 0; (* 1540: movi v17.4s, #0 *)
  B Always (Fwd 99); (* 1542: b 99f *)
  Label 92; (* 1544: 92: *)
  Narrow false false 2 16 16; (* 1548: sqxtn v16.4h, v16.4s *)
  Movi 18 0; (* 1553: movi v18.4s, #0 *)
  Movi 19 0; (* 1554: movi v19.4s, #0 *)
  DupLane 2 8 14 13 4; (* 1557: dup v14.8h, v13.h[4] *)
  V2 (Sqadd 2) 16 16 14; (* 1558: sqadd v16.8h, v16.8h, v14.8h *)
  Narrow false false 1 16 16; (* 1561: sqxtn v16.8b, v16.8h *)
  Ldr 1 2 params (Imm 120); (* 1565: ldrb w2, [%[params], #120] *)
  Ldr 1 3 params (Imm 124); (* 1566: ldrb w3, [%[params], #124] *)
  Dup 1 16 14 2; (* 1567: dup v14.16b, w2 *)
  Dup 1 16 15 3; (* 1568: dup v15.16b, w3 *)
  V2 (Smax 1) 16 16 14; (* 1571: smax v16.16b, v16.16b, v14.16b *)
  V2 (Smin 1) 16 16 15; (* 1573: smin v16.16b, v16.16b, v15.16b *)
  Alu ASub false W 1 dst_rows (Reg row); (* 1580: sub w1, %w[dst_rows], %w[row] *)
  Alu ASub false W 2 dst_cols (Reg col); (* 1581: sub w2, %w[dst_cols], %w[col] *)
  Mov W 3 (Imm 4); (* 1582: mov w3, #4 *)
  Cmp W 1 (Imm 4); (* 1583: cmp w1, #4 *)
  Csel W 1 1 3 LE; (* 1585: csel w1, w1, w3, le *)
  Cmp W 2 (Imm 4); (* 1586: cmp w2, #4 *)
  Cmp W 1 (Reg 3); (* 1589: cmp w1, w3 *)
  Ccmp W 2 (Reg 3) EQ; (* 1590: ccmp w2, w3, 0, eq *)
  Mov X 4 (Reg dst_ptr); (* 1591: mov x4, %[dst_ptr] *)
  B EQ (Fwd 30); (* 1593: beq 30f *)
  St1 16 16 dst_tmp_buf (Imm 0); (* 1596: st1 {v16.16b}, [%[dst_tmp_buf]] *)
  Mov X 3 (Reg dst_tmp_buf); (* 1598: mov x3, %[dst_tmp_buf] *)
  Mov W 6 (Imm 0); (* 1599: mov w6, #0 *)
  Label 50; (* 1600: 50: *)
  Nop; (* 1601: prfm pstl1strm, [x4] *)
  Mov W 5 (Imm 0); (* 1602: mov w5, #0 *)
  Label 51; (* 1603: 51: *)
  Ldr 1 7 3 (Uxtw 5); (* 1604: ldrb w7, [x3, w5, uxtw] *)
  Str 1 7 4 (Uxtw 5); (* 1605: strb w7, [x4, w5, uxtw] *)
  Alu AAdd false W 5 5 (Imm 1); (* 1606: add w5, w5, #1 *)
  Cmp W 5 (Reg 1); (* 1607: cmp w5, w1 *)
  B LT (Back 51); (* 1608: blt 51b *)
  B Always (Fwd 31); (* 1609: b 31f *)
  Label 30; (* 1610: 30: *)
  Nop; (* 1612: prfm pstl1strm, [x4] *)
  Mov X 3 (Reg 4); (* 1613: mov x3, x4 *)
  St1Lane 1 16 0 3 (Imm 1); (* 1614: st1 {v16.b}[0], [x3], #1 *)
  St1Lane 1 16 1 3 (Imm 1); (* 1615: st1 {v16.b}[1], [x3], #1 *)
  St1Lane 1 16 2 3 (Imm 1); (* 1616: st1 {v16.b}[2], [x3], #1 *)
  St1Lane 1 16 3 3 (Imm 1); (* 1617: st1 {v16.b}[3], [x3], #1 *)
  Label 31; (* 1618: 31: *)
  Alu AAdd false X dst_ptr dst_ptr (Imm 4); (* 1620: add %[dst_ptr], %[dst_ptr], #4 *)
  Movi 16 0; (* 1622: movi v16.4s, #0 *)
  Movi 17 0; (* 1623: movi v17.4s, #0 *)
  B Always (Fwd 99); (* 1625: b 99f *)
  Label 93; (* 1627: 93: *)
  DupLane 2 4 14 13 4; (* 1630: dup v14.4h, v13.h[4] *)
  Saddw 16 16 14; (* 1631: saddw v16.4s, v16.4s, v14.4h *)
  Narrow false false 2 16 16; (* 1635: sqxtn v16.4h, v16.4s *)
  Movi 18 0; (* 1640: movi v18.4s, #0 *)
  Movi 19 0; (* 1641: movi v19.4s, #0 *)
  Ldr 2 2 params (Imm 120); (* 1644: ldrh w2, [%[params], #120] *)
  Ldr 2 3 params (Imm 124); (* 1645: ldrh w3, [%[params], #124] *)
  Dup 2 8 14 2; (* 1646: dup v14.8h, w2 *)
  Dup 2 8 15 3; (* 1647: dup v15.8h, w3 *)
  V2 (Smax 2) 16 16 14; (* 1650: smax v16.8h, v16.8h, v14.8h *)
  V2 (Smin 2) 16 16 15; (* 1652: smin v16.8h, v16.8h, v15.8h *)
  Alu ASub false W 1 dst_rows (Reg row); (* 1659: sub w1, %w[dst_rows], %w[row] *)
  Alu ASub false W 2 dst_cols (Reg col); (* 1660: sub w2, %w[dst_cols], %w[col] *)
  Mov W 3 (Imm 4); (* 1661: mov w3, #4 *)
  Cmp W 1 (Imm 4); (* 1662: cmp w1, #4 *)
  Csel W 1 1 3 LE; (* 1664: csel w1, w1, w3, le *)
  Cmp W 2 (Imm 4); (* 1665: cmp w2, #4 *)
  Cmp W 1 (Reg 3); (* 1668: cmp w1, w3 *)
  Mov X 4 (Reg dst_ptr); (* 1669: mov x4, %[dst_ptr] *)
  B EQ (Fwd 30); (* 1671: beq 30f *)
  StrQ 16 dst_tmp_buf (Imm 0); (* 1674: str q16, [%[dst_tmp_buf], #0] *)
  Mov X 3 (Reg dst_tmp_buf); (* 1676: mov x3, %[dst_tmp_buf] *)
  Mov W 6 (Imm 0); (* 1677: mov w6, #0 *)
  Label 50; (* 1678: 50: *)
  Nop; (* 1679: prfm pstl1strm, [x4] *)
  Mov W 5 (Imm 0); (* 1680: mov w5, #0 *)
  Label 51; (* 1681: 51: *)
  Ldr 2 7 3 (Lsl 5 1); (* 1682: ldrh w7, [x3, x5, lsl #1] *)
  Str 2 7 4 (Lsl 5 1); (* 1683: strh w7, [x4, x5, lsl #1] *)
  Alu AAdd false W 5 5 (Imm 1); (* 1684: add w5, w5, #1 *)
  Cmp W 5 (Reg 1); (* 1685: cmp w5, w1 *)
  B LT (Back 51); (* 1686: blt 51b *)
  B LT (Back 50); (* 1687: blt 50b *)
  B Always (Fwd 31); (* 1688: b 31f *)
  Label 30; (* 1689: 30: *)
  Nop; (* 1691: prfm pstl1strm, [x4] *)
  Mov X 3 (Reg 4); (* 1692: mov x3, x4 *)
  St1Lane 2 16 0 3 (Imm 2); (* 1693: st1 {v16.h}[0], [x3], #2 *)
  St1Lane 2 16 1 3 (Imm 2); (* 1694: st1 {v16.h}[1], [x3], #2 *)
  St1Lane 2 16 2 3 (Imm 2); (* 1695: st1 {v16.h}[2], [x3], #2 *)
  St1Lane 2 16 3 3 (Imm 2); (* 1696: st1 {v16.h}[3], [x3], #2 *)
  Label 31; (* 1697: 31: *)
  Alu AAdd false X dst_ptr dst_ptr (Imm 8); (* 1699: add %[dst_ptr], %[dst_ptr], #8 *)
  Movi 16 0; (* 1701: movi v16.4s, #0 *)
  Movi 17 0; (* 1702: movi v17.4s, #0 *)
  B Always (Fwd 99); (* 1704: b 99f *)
  Label 94; (* 1706: 94: *)
  Alu ASub false W 1 dst_rows (Reg row); (* 1716: sub w1, %w[dst_rows], %w[row] *)
  Alu ASub false W 2 dst_cols (Reg col); (* 1717: sub w2, %w[dst_cols], %w[col] *)
  Mov W 3 (Imm 4); (* 1718: mov w3, #4 *)
  Cmp W 1 (Imm 4); (* 1719: cmp w1, #4 *)
  Csel W 1 1 3 LE; (* 1721: csel w1, w1, w3, le *)
  Cmp W 2 (Imm 4); (* 1722: cmp w2, #4 *)
  Cmp W 1 (Reg 3); (* 1725: cmp w1, w3 *)
  Ccmp W 2 (Reg 3) EQ; (* 1726: ccmp w2, w3, 0, eq *)
  Mov X 4 (Reg dst_ptr); (* 1727: mov x4, %[dst_ptr] *)
  B EQ (Fwd 30); (* 1729: beq 30f *)
  StrQ 16 dst_tmp_buf (Imm 0); (* 1732: str q16, [%[dst_tmp_buf], #0] *)
  Mov X 3 (Reg dst_tmp_buf); (* 1734: mov x3, %[dst_tmp_buf] *)
  Mov W 6 (Imm 0); (* 1735: mov w6, #0 *)
  Label 50; (* 1736: 50: *)
  Nop; (* 1737: prfm pstl1strm, [x4] *)
  Mov W 5 (Imm 0); (* 1738: mov w5, #0 *)
  Label 51; (* 1739: 51: *)
  Ldr 4 7 3 (Lsl 5 2); (* 1740: ldr w7, [x3, x5, lsl #2] *)
  Str 4 7 4 (Lsl 5 2); (* 1741: str w7, [x4, x5, lsl #2] *)
  Alu AAdd false W 5 5 (Imm 1); (* 1742: add w5, w5, #1 *)
  Cmp W 5 (Reg 1); (* 1743: cmp w5, w1 *)
  B LT (Back 51); (* 1744: blt 51b *)
  B Always (Fwd 31); (* 1745: b 31f *)
  Label 30; (* 1746: 30: *)
  Nop; (* 1748: prfm pstl1strm, [x4] *)
  Mov X 3 (Reg 4); (* 1749: mov x3, x4 *)
  St1Lane 4 16 0 3 (Imm 4); (* 1750: st1 {v16.s}[0], [x3], #4 *)
  St1Lane 4 16 1 3 (Imm 4); (* 1751: st1 {v16.s}[1], [x3], #4 *)
  St1Lane 4 16 2 3 (Imm 4); (* 1752: st1 {v16.s}[2], [x3], #4 *)
  St1Lane 4 16 3 3 (Imm 4); (* 1753: st1 {v16.s}[3], [x3], #4 *)
  Label 31; (* 1754: 31: *)
  Alu AAdd false X dst_ptr dst_ptr (Imm 16); (* 1756: add %[dst_ptr], %[dst_ptr], #16 *)
  Movi 16 0; (* 1758: movi v16.4s, #0 *)
  Movi 17 0; (* 1759: movi v17.4s, #0 *)
  Movi 18 0; (* 1760: movi v18.4s, #0 *)
  Movi 19 0; (* 1761: movi v19.4s, #0 *)
  Label 99; (* 1763: 99: *)
  Smull 8 0 4; (* 1767: smull    v8.8h,  v0.8b,  v4.8b *)
  Smull 9 1 4; (* 1768: smull    v9.8h,  v1.8b,  v4.8b *)
  Smull 10 2 4; (* 1769: smull    v10.8h,  v2.8b,  v4.8b *)
  Smull 11 3 4; (* 1770: smull    v11.8h,  v3.8b,  v4.8b *)
  Smlal2 8 0 4; (* 1771: smlal2   v8.8h,  v0.16b,  v4.16b *)
  Smlal2 9 1 4; (* 1772: smlal2   v9.8h,  v1.16b,  v4.16b *)
  Smlal2 10 2 4; (* 1773: smlal2   v10.8h,  v2.16b,  v4.16b *)
  Smlal2 11 3 4; (* 1774: smlal2   v11.8h,  v3.16b,  v4.16b *)
  Ldr 8 5 params (Imm 24); (* 1778: ldr x5, [%[params], #24] *)
  Ldr 4 6 params (Imm 80); (* 1779: ldr w6, [%[params], #80] *)
  Ldr 4 7 params (Imm 88); (* 1780: ldr w7, [%[params], #88] *)
  Cmp W row (Reg 7); (* 1786: cmp %w[row], w7 *)
  B EQ (Fwd 20); (* 1787: beq 20f *)
  Alu AAdd false W row row (Imm 4); (* 1789: add %w[row], %w[row], #4 *)
  B Always (Fwd 21); (* 1790: b 21f *)
  Label 20; (* 1791: 20: *)
  Mov W row (Reg 6); (* 1793: mov %w[row], w6 *)
  Alu AAdd false W col col (Imm 4); (* 1794: add %w[col], %w[col], #4 *)
  Alu AAdd false X dst_col_ptr dst_col_ptr (Lsl 11 2); (* 1795: add %[dst_col_ptr], %[dst_col_ptr], x11, lsl #2 *)
  Mov X dst_ptr (Reg dst_col_ptr); (* 1796: mov %[dst_ptr], %[dst_col_ptr] *)
  Label 21; (* 1797: 21: *)
  Cmp W col (Reg 8); (* 1800: cmp %w[col], w8 *)
  Mov W 1 (Imm 16); (* 1805: mov w1, #16 *)
  B LE (Back 1) (* 1807: ble 1b *)
].

(** kernel_arm64.cc:1872-2957, Kernel8bitNeonA55ish. *)
Definition kernel8_a55 : list instr := [
  Ldr 8 5 params (Imm 24); (* 1872: ldr x5, [%[params], #24] *)
  Movi 16 0; (* 1873: movi v16.4s, #0 *)
  Ldr 4 6 params (Imm 80); (* 1874: ldr w6, [%[params], #80] *)
  Movi 17 0; (* 1875: movi v17.4s, #0 *)
  Ldr 4 7 params (Imm 88); (* 1876: ldr w7, [%[params], #88] *)
  Movi 18 0; (* 1877: movi v18.4s, #0 *)
  Ldr 4 8 params (Imm 92); (* 1878: ldr w8, [%[params], #92] *)
  Movi 19 0; (* 1879: movi v19.4s, #0 *)
  Ldr 4 9 params (Imm 104); (* 1880: ldr w9, [%[params], #104] *)
  Movi 20 0; (* 1881: movi v20.4s, #0 *)
  Ldr 4 10 params (Imm 108); (* 1882: ldr w10, [%[params], #108] *)
  Movi 21 0; (* 1883: movi v21.4s, #0 *)
  Ldr 4 11 params (Imm 112); (* 1884: ldr w11, [%[params], #112] *)
  Movi 22 0; (* 1885: movi v22.4s, #0 *)
  Ldr 4 12 params (Imm 116); (* 1886: ldr w12, [%[params], #116] *)
  Movi 23 0; (* 1887: movi v23.4s, #0 *)
  Ld1 16 0 lhs_ptr (Imm 16); (* 1890: ld1 {v0.16b}, [%[lhs_ptr]], #16 *)
  Movi 24 0; (* 1891: movi v24.4s, #0 *)
  Ld1 16 1 lhs_ptr (Imm 16); (* 1892: ld1 {v1.16b}, [%[lhs_ptr]], #16 *)
  Movi 25 0; (* 1893: movi v25.4s, #0 *)
  Ld1 16 2 lhs_ptr (Imm 16); (* 1894: ld1 {v2.16b}, [%[lhs_ptr]], #16 *)
  Movi 26 0; (* 1895: movi v26.4s, #0 *)
  Ld1 16 3 lhs_ptr (Imm 16); (* 1896: ld1 {v3.16b}, [%[lhs_ptr]], #16 *)
  Movi 27 0; (* 1897: movi v27.4s, #0 *)
  Ld1 16 4 rhs_ptr (Imm 16); (* 1898: ld1 {v4.16b}, [%[rhs_ptr]], #16 *)
  Movi 28 0; (* 1899: movi v28.4s, #0 *)
  Ld1 16 5 rhs_ptr (Imm 16); (* 1900: ld1 {v5.16b}, [%[rhs_ptr]], #16 *)
  Movi 29 0; (* 1901: movi v29.4s, #0 *)
  Ld1 16 6 rhs_ptr (Imm 16); (* 1902: ld1 {v6.16b}, [%[rhs_ptr]], #16 *)
  Movi 30 0; (* 1903: movi v30.4s, #0 *)
  Ld1 16 7 rhs_ptr (Imm 16); (* 1904: ld1 {v7.16b}, [%[rhs_ptr]], #16 *)
  Movi 31 0; (* 1905: movi v31.4s, #0 *)
  Mov W 1 (Imm 16); (* 1911: mov w1, #16 *)
  Smull 8 0 4; (* 1915: smull    v8.8h,  v0.8b,  v4.8b *)
  Smull 9 1 4; (* 1916: smull    v9.8h,  v1.8b,  v4.8b *)
  Smull 10 2 4; (* 1917: smull    v10.8h,  v2.8b,  v4.8b *)
  Smull 11 3 4; (* 1918: smull    v11.8h,  v3.8b,  v4.8b *)
  Smull 12 0 5; (* 1919: smull    v12.8h,  v0.8b,  v5.8b *)
  Smull 13 1 5; (* 1920: smull    v13.8h,  v1.8b,  v5.8b *)
  Smull 14 2 5; (* 1921: smull    v14.8h,  v2.8b,  v5.8b *)
  Smull 15 3 5; (* 1922: smull    v15.8h,  v3.8b,  v5.8b *)
  Smlal2 8 0 4; (* 1928: smlal2   v8.8h,  v0.16b,  v4.16b *)
  Smlal2 9 1 4; (* 1929: smlal2   v9.8h,  v1.16b,  v4.16b *)
  Smlal2 10 2 4; (* 1930: smlal2   v10.8h,  v2.16b,  v4.16b *)
  Smlal2 11 3 4; (* 1931: smlal2   v11.8h,  v3.16b,  v4.16b *)
  Smlal2 12 0 5; (* 1932: smlal2   v12.8h,  v0.16b,  v5.16b *)
  Smlal2 13 1 5; (* 1933: smlal2   v13.8h,  v1.16b,  v5.16b *)
  Smlal2 14 2 5; (* 1934: smlal2   v14.8h,  v2.16b,  v5.16b *)
  Smlal2 15 3 5; (* 1935: smlal2   v15.8h,  v3.16b,  v5.16b *)
  Label 1; (* 1940: 1: *)
  Cmp W 1 (Reg 12); (* 1944: cmp w1, w12 *)
  B EQ (Fwd 79); (* 1945: beq 79f *)
  Label 2; (* 1947: 2: *)
  Sadalp 2 16 8; (* 1951: sadalp  v16.4s, v8.8h *)
  LdrD 4 rhs_ptr (Imm 0); (* 1952: ldr d4, [%[rhs_ptr], #0] *)
  Smull 8 0 6; (* 1953: smull    v8.8h,  v0.8b,  v6.8b *)
  Ldr 8 7 rhs_ptr (Imm 8); (* 1954: ldr x7, [%[rhs_ptr], #8] *)
  Sadalp 2 17 9; (* 1955: sadalp  v17.4s, v9.8h *)
  LdrD 5 rhs_ptr (Imm 16); (* 1956: ldr d5, [%[rhs_ptr], #16] *)
  Smull 9 1 6; (* 1957: smull    v9.8h,  v1.8b,  v6.8b *)
  Ldr 8 8 rhs_ptr (Imm 24); (* 1958: ldr x8, [%[rhs_ptr], #24] *)
  Sadalp 2 18 10; (* 1959: sadalp  v18.4s, v10.8h *)
  Smull 10 2 6; (* 1960: smull    v10.8h,  v2.8b,  v6.8b *)
  Sadalp 2 19 11; (* 1961: sadalp  v19.4s, v11.8h *)
  Alu AAdd false X lhs_ptr lhs_ptr (Imm 64); (* 1962: add %[lhs_ptr], %[lhs_ptr], #64 *)
  Smull 11 3 6; (* 1963: smull    v11.8h,  v3.8b,  v6.8b *)
  Alu AAdd false X rhs_ptr rhs_ptr (Imm 64); (* 1964: add %[rhs_ptr], %[rhs_ptr], #64 *)
  Sadalp 2 20 12; (* 1965: sadalp  v20.4s, v12.8h *)
  Alu AAdd false W 1 1 (Imm 16); (* 1967: add w1, w1, #16 *)
  Smull 12 0 7; (* 1968: smull    v12.8h,  v0.8b,  v7.8b *)
  Cmp W 1 (Reg 12); (* 1970: cmp w1, w12 *)
  Sadalp 2 21 13; (* 1971: sadalp  v21.4s, v13.8h *)
  Ldr 8 3 lhs_ptr (Imm (-56)); (* 1972: ldr x3, [%[lhs_ptr], #-56] *)
  Smull 13 1 7; (* 1973: smull    v13.8h,  v1.8b,  v7.8b *)
  Ldr 8 4 lhs_ptr (Imm (-40)); (* 1974: ldr x4, [%[lhs_ptr], #-40] *)
  Sadalp 2 22 14; (* 1975: sadalp  v22.4s, v14.8h *)
  Ldr 8 5 lhs_ptr (Imm (-24)); (* 1976: ldr x5, [%[lhs_ptr], #-24] *)
  Smull 14 2 7; (* 1977: smull    v14.8h,  v2.8b,  v7.8b *)
  Ldr 8 6 lhs_ptr (Imm (-8)); (* 1978: ldr x6, [%[lhs_ptr], #-8] *)
  Sadalp 2 23 15; (* 1979: sadalp  v23.4s, v15.8h *)
  Smull 15 3 7; (* 1980: smull    v15.8h,  v3.8b,  v7.8b *)
  Smlal2 8 0 6; (* 1986: smlal2   v8.8h,  v0.16b,  v6.16b *)
  Smlal2 9 1 6; (* 1987: smlal2   v9.8h,  v1.16b,  v6.16b *)
  Smlal2 10 2 6; (* 1988: smlal2   v10.8h,  v2.16b,  v6.16b *)
  Ldr 8 9 rhs_ptr (Imm (-24)); (* 1989: ldr x9, [%[rhs_ptr], #-24] *)
  Smlal2 11 3 6; (* 1990: smlal2   v11.8h,  v3.16b,  v6.16b *)
  LdrD 6 rhs_ptr (Imm (-32)); (* 1991: ldr d6, [%[rhs_ptr], #-32] *)
  Smlal2 12 0 7; (* 1992: smlal2   v12.8h,  v0.16b,  v7.16b *)
  LdrD 0 lhs_ptr (Imm (-64)); (* 1993: ldr d0, [%[lhs_ptr], #-64] *)
  Smlal2 13 1 7; (* 1994: smlal2   v13.8h,  v1.16b,  v7.16b *)
  LdrD 1 lhs_ptr (Imm (-48)); (* 1995: ldr d1, [%[lhs_ptr], #-48] *)
  Smlal2 14 2 7; (* 1996: smlal2   v14.8h,  v2.16b,  v7.16b *)
  Ins 8 4 1 7; (* 1997: ins v4.d[1], x7 *)
  Smlal2 15 3 7; (* 1998: smlal2   v15.8h,  v3.16b,  v7.16b *)
  Ins 8 5 1 8; (* 1999: ins v5.d[1], x8 *)
  LdrD 2 lhs_ptr (Imm (-32)); (* 2001: ldr d2, [%[lhs_ptr], #-32] *)
  Ins 8 0 1 3; (* 2002: ins v0.d[1], x3 *)
  Sadalp 2 24 8; (* 2003: sadalp  v24.4s, v8.8h *)
  LdrD 3 lhs_ptr (Imm (-16)); (* 2004: ldr d3, [%[lhs_ptr], #-16] *)
  Ins 8 1 1 4; (* 2005: ins v1.d[1], x4 *)
  Smull 8 0 4; (* 2006: smull    v8.8h,  v0.8b,  v4.8b *)
  Ins 8 2 1 5; (* 2007: ins v2.d[1], x5 *)
  Sadalp 2 25 9; (* 2008: sadalp  v25.4s, v9.8h *)
  Ins 8 3 1 6; (* 2009: ins v3.d[1], x6 *)
  Smull 9 1 4; (* 2010: smull    v9.8h,  v1.8b,  v4.8b *)
  LdrD 7 rhs_ptr (Imm (-16)); (* 2011: ldr d7, [%[rhs_ptr], #-16] *)
  Sadalp 2 26 10; (* 2012: sadalp  v26.4s, v10.8h *)
  Ldr 8 10 rhs_ptr (Imm (-8)); (* 2013: ldr x10, [%[rhs_ptr], #-8] *)
  Smull 10 2 4; (* 2014: smull    v10.8h,  v2.8b,  v4.8b *)
  Sadalp 2 27 11; (* 2015: sadalp  v27.4s, v11.8h *)
  Smull 11 3 4; (* 2016: smull    v11.8h,  v3.8b,  v4.8b *)
  Sadalp 2 28 12; (* 2017: sadalp  v28.4s, v12.8h *)
  Smull 12 0 5; (* 2018: smull    v12.8h,  v0.8b,  v5.8b *)
  Sadalp 2 29 13; (* 2019: sadalp  v29.4s, v13.8h *)
  Smull 13 1 5; (* 2020: smull    v13.8h,  v1.8b,  v5.8b *)
  Sadalp 2 30 14; (* 2021: sadalp  v30.4s, v14.8h *)
  Smull 14 2 5; (* 2022: smull    v14.8h,  v2.8b,  v5.8b *)
  Sadalp 2 31 15; (* 2023: sadalp  v31.4s, v15.8h *)
  Smull 15 3 5; (* 2024: smull    v15.8h,  v3.8b,  v5.8b *)
  Smlal2 8 0 4; (* 2030: smlal2   v8.8h,  v0.16b,  v4.16b *)
  Smlal2 9 1 4; (* 2031: smlal2   v9.8h,  v1.16b,  v4.16b *)
  Smlal2 10 2 4; (* 2032: smlal2   v10.8h,  v2.16b,  v4.16b *)
  Smlal2 11 3 4; (* 2033: smlal2   v11.8h,  v3.16b,  v4.16b *)
  Smlal2 12 0 5; (* 2035: smlal2   v12.8h,  v0.16b,  v5.16b *)
  Smlal2 13 1 5; (* 2036: smlal2   v13.8h,  v1.16b,  v5.16b *)
  Ins 8 6 1 9; (* 2037: ins v6.d[1], x9 *)
  Smlal2 14 2 5; (* 2038: smlal2   v14.8h,  v2.16b,  v5.16b *)
  Ins 8 7 1 10; (* 2039: ins v7.d[1], x10 *)
  Smlal2 15 3 5; (* 2040: smlal2   v15.8h,  v3.16b,  v5.16b *)
  B LT (Back 2); (* 2042: blt 2b *)
  Label 79; (* 2044: 79: *)
  Sadalp 2 16 8; (* 2046: sadalp  v16.4s, v8.8h *)
  Smull 8 0 6; (* 2047: smull    v8.8h,  v0.8b,  v6.8b *)
  Sadalp 2 17 9; (* 2048: sadalp  v17.4s, v9.8h *)
  Smull 9 1 6; (* 2049: smull    v9.8h,  v1.8b,  v6.8b *)
  Sadalp 2 18 10; (* 2050: sadalp  v18.4s, v10.8h *)
  Smull 10 2 6; (* 2051: smull    v10.8h,  v2.8b,  v6.8b *)
  Sadalp 2 19 11; (* 2052: sadalp  v19.4s, v11.8h *)
  Smull 11 3 6; (* 2053: smull    v11.8h,  v3.8b,  v6.8b *)
  Sadalp 2 20 12; (* 2054: sadalp  v20.4s, v12.8h *)
  Smull 12 0 7; (* 2055: smull    v12.8h,  v0.8b,  v7.8b *)
  Sadalp 2 21 13; (* 2056: sadalp  v21.4s, v13.8h *)
  Smull 13 1 7; (* 2057: smull    v13.8h,  v1.8b,  v7.8b *)
  Sadalp 2 22 14; (* 2058: sadalp  v22.4s, v14.8h *)
  Smull 14 2 7; (* 2059: smull    v14.8h,  v2.8b,  v7.8b *)
  Sadalp 2 23 15; (* 2060: sadalp  v23.4s, v15.8h *)
  Smull 15 3 7; (* 2061: smull    v15.8h,  v3.8b,  v7.8b *)
  Smlal2 8 0 6; (* 2067: smlal2   v8.8h,  v0.16b,  v6.16b *)
  Smlal2 9 1 6; (* 2068: smlal2   v9.8h,  v1.16b,  v6.16b *)
  Smlal2 10 2 6; (* 2069: smlal2   v10.8h,  v2.16b,  v6.16b *)
  Smlal2 11 3 6; (* 2070: smlal2   v11.8h,  v3.16b,  v6.16b *)
  Smlal2 12 0 7; (* 2072: smlal2   v12.8h,  v0.16b,  v7.16b *)
  Smlal2 13 1 7; (* 2073: smlal2   v13.8h,  v1.16b,  v7.16b *)
  Smlal2 14 2 7; (* 2074: smlal2   v14.8h,  v2.16b,  v7.16b *)
  Smlal2 15 3 7; (* 2075: smlal2   v15.8h,  v3.16b,  v7.16b *)
  Sadalp 2 24 8; (* 2077: sadalp  v24.4s, v8.8h *)
  Ldr 8 5 params (Imm 24); (* 2078: ldr x5, [%[params], #24] *)
  Sadalp 2 25 9; (* 2079: sadalp  v25.4s, v9.8h *)
  Ldr 4 6 params (Imm 80); (* 2080: ldr w6, [%[params], #80] *)
  Sadalp 2 26 10; (* 2081: sadalp  v26.4s, v10.8h *)
  Ldr 4 7 params (Imm 88); (* 2082: ldr w7, [%[params], #88] *)
  Sadalp 2 27 11; (* 2083: sadalp  v27.4s, v11.8h *)
  Ldr 4 8 params (Imm 92); (* 2084: ldr w8, [%[params], #92] *)
  Sadalp 2 28 12; (* 2085: sadalp  v28.4s, v12.8h *)
  Ldr 4 9 params (Imm 104); (* 2086: ldr w9, [%[params], #104] *)
  Sadalp 2 29 13; (* 2087: sadalp  v29.4s, v13.8h *)
  Ldr 4 10 params (Imm 108); (* 2088: ldr w10, [%[params], #108] *)
  Sadalp 2 30 14; (* 2089: sadalp  v30.4s, v14.8h *)
  Sadalp 2 31 15; (* 2090: sadalp  v31.4s, v15.8h *)
  V2 (Addp 4) 16 16 17; (* 2103: addp v16.4s, v16.4s, v17.4s *)
  V2 (Addp 4) 18 18 19; (* 2104: addp v18.4s, v18.4s, v19.4s *)
  V2 (Addp 4) 20 20 21; (* 2105: addp v20.4s, v20.4s, v21.4s *)
  V2 (Addp 4) 22 22 23; (* 2106: addp v22.4s, v22.4s, v23.4s *)
  V2 (Addp 4) 24 24 25; (* 2107: addp v24.4s, v24.4s, v25.4s *)
  V2 (Addp 4) 26 26 27; (* 2108: addp v26.4s, v26.4s, v27.4s *)
  V2 (Addp 4) 28 28 29; (* 2109: addp v28.4s, v28.4s, v29.4s *)
  V2 (Addp 4) 30 30 31; (* 2110: addp v30.4s, v30.4s, v31.4s *)
  V2 (Addp 4) 16 16 18; (* 2114: addp v16.4s, v16.4s, v18.4s *)
  V2 (Addp 4) 17 20 22; (* 2115: addp v17.4s, v20.4s, v22.4s *)
  V2 (Addp 4) 18 24 26; (* 2116: addp v18.4s, v24.4s, v26.4s *)
  V2 (Addp 4) 19 28 30; (* 2117: addp v19.4s, v28.4s, v30.4s *)
  Cmp W row (Reg 7); (* 2125: cmp %w[row], w7 *)
  B GE (Fwd 4); (* 2126: bge 4f *)
  Alu AAdd false X lhs_col_ptr lhs_col_ptr (Lsl 9 2); (* 2128: add %[lhs_col_ptr], %[lhs_col_ptr], x9, lsl #2 *)
  B Always (Fwd 5); (* 2129: b 5f *)
  Label 4; (* 2130: 4: *)
  Mov X lhs_col_ptr (Reg 5); (* 2131: mov %[lhs_col_ptr], x5 *)
  Cmp W col (Reg 8); (* 2139: cmp %w[col], w8 *)
  B GE (Fwd 5); (* 2140: bge 5f *)
  Alu AAdd false X rhs_col_ptr rhs_col_ptr (Lsl 10 2); (* 2142: add %[rhs_col_ptr], %[rhs_col_ptr], x10, lsl #2 *)
  Label 5; (* 2143: 5: *)
  Mov X lhs_ptr (Reg lhs_col_ptr); (* 2147: mov %[lhs_ptr], %[lhs_col_ptr] *)
  Mov X rhs_ptr (Reg rhs_col_ptr); (* 2148: mov %[rhs_ptr], %[rhs_col_ptr] *)
  Movi 8 255; (* 2151: mvni v8.4s, #0 *)
  Ldr 4 4 params (Imm 72); (* 2152: ldr w4, [%[params], #72] *)
  Ldr 4 3 params (Imm 76); (* 2153: ldr w3, [%[params], #76] *)
  Ins 2 13 4 4; (* 2154: ins v13.h[4], w4 *)
  Ldr 8 4 params (Imm 32); (* 2155: ldr x4, [%[params], #32] *)
  Ldr 1 6 params (Imm 128); (* 2156: ldrb w6, [%[params], #128] *)
  Dup 4 4 9 3; (* 2157: dup v9.4s, w3 *)
  Ldr 8 1 params (Imm 0); (* 2159: ldr x1, [%[params], #0] *)
  Tst W 6 (Imm 32); (* 2162: tst w6, #0x20 *)
  Csel W 3 row col EQ; (* 2163: csel w3, %w[row], %w[col], eq *)
  Alu AAdd false X 5 1 (Lsl 3 2); (* 2166: add x5, x1, x3, lsl #2 *)
  Tst W 6 (Imm 1); (* 2170: tst w6, #0x1 *)
  Csel X 1 1 5 EQ; (* 2171: csel x1, x1, x5, eq *)
  Ld1 16 14 1 (Imm 0); (* 2174: ld1 {v14.4s}, [x1] *)
  Alu AAdd false X 5 4 (Lsl 3 2); (* 2177: add x5, x4, x3, lsl #2 *)
  Tst W 6 (Imm 8); (* 2178: tst w6, #0x8 *)
  Csel X 4 4 5 EQ; (* 2179: csel x4, x4, x5, eq *)
  Ld1 16 15 4 (Imm 0); (* 2180: ld1 {v15.4s}, [x4] *)
  V2 (VAdd 4) 14 14 9; (* 2189: add v14.4s, v14.4s, v9.4s *)
  LdrD 0 lhs_ptr (Imm 0); (* 2190: ldr d0, [%[lhs_ptr], #0] *)
  Tst W 6 (Imm 32); (* 2195: tst w6, #0x20 *)
  B NE (Fwd 6); (* 2196: bne 6f *)
  V2 (VAdd 4) 16 16 14; (* 2199: add v16.4s, v16.4s, v14.4s *)
  LdrD 1 lhs_ptr (Imm 16); (* 2200: ldr d1, [%[lhs_ptr], #16] *)
  V2 (VAdd 4) 17 17 14; (* 2201: add v17.4s, v17.4s, v14.4s *)
  LdrD 2 lhs_ptr (Imm 32); (* 2202: ldr d2, [%[lhs_ptr], #32] *)
  V2 (VAdd 4) 18 18 14; (* 2203: add v18.4s, v18.4s, v14.4s *)
  LdrD 3 lhs_ptr (Imm 48); (* 2204: ldr d3, [%[lhs_ptr], #48] *)
  V2 (VAdd 4) 19 19 14; (* 2205: add v19.4s, v19.4s, v14.4s *)
  LdrD 4 rhs_ptr (Imm 0); (* 2206: ldr d4, [%[rhs_ptr], #0] *)
  LdrD 5 rhs_ptr (Imm 16); (* 2207: ldr d5, [%[rhs_ptr], #16] *)
  LdrD 6 rhs_ptr (Imm 32); (* 2208: ldr d6, [%[rhs_ptr], #32] *)
  LdrD 7 rhs_ptr (Imm 48); (* 2209: ldr d7, [%[rhs_ptr], #48] *)
  B Always (Fwd 7); (* 2211: b 7f *)
  Label 6; (* 2213: 6: *)
  DupLane 4 4 20 14 0; (* 2215: dup v20.4s, v14.s[0] *)
  LdrD 1 lhs_ptr (Imm 16); (* 2216: ldr d1, [%[lhs_ptr], #16] *)
  DupLane 4 4 21 14 1; (* 2217: dup v21.4s, v14.s[1] *)
  LdrD 2 lhs_ptr (Imm 32); (* 2218: ldr d2, [%[lhs_ptr], #32] *)
  DupLane 4 4 22 14 2; (* 2219: dup v22.4s, v14.s[2] *)
  LdrD 3 lhs_ptr (Imm 48); (* 2220: ldr d3, [%[lhs_ptr], #48] *)
  DupLane 4 4 23 14 3; (* 2221: dup v23.4s, v14.s[3] *)
  LdrD 4 rhs_ptr (Imm 0); (* 2222: ldr d4, [%[rhs_ptr], #0] *)
  V2 (VAdd 4) 16 16 20; (* 2223: add v16.4s, v16.4s, v20.4s *)
  LdrD 5 rhs_ptr (Imm 16); (* 2224: ldr d5, [%[rhs_ptr], #16] *)
  V2 (VAdd 4) 17 17 21; (* 2225: add v17.4s, v17.4s, v21.4s *)
  LdrD 6 rhs_ptr (Imm 32); (* 2226: ldr d6, [%[rhs_ptr], #32] *)
  V2 (VAdd 4) 18 18 22; (* 2227: add v18.4s, v18.4s, v22.4s *)
  LdrD 7 rhs_ptr (Imm 48); (* 2228: ldr d7, [%[rhs_ptr], #48] *)
  V2 (VAdd 4) 19 19 23; (* 2229: add v19.4s, v19.4s, v23.4s *)
  Label 7; (* 2230: 7: *)
  Tst W 6 (Imm 4); (* 2232: tst w6, #0x4 *)
  B EQ (Fwd 401); (* 2233: beq 401f *)
  Ldr 8 3 params (Imm 16); (* 2234: ldr x3, [%[params], #16] *)
  Alu AAdd false X 3 3 (Lsl col 2); (* 2235: add x3, x3, %x[col], lsl #2 *)
  Ld1 16 14 3 (Imm 0); (* 2236: ld1 {v14.4s}, [x3] *)
  Ldr 4 5 params (Imm 64); (* 2237: ldr w5, [%[params], #64] *)
  Dup 4 4 10 5; (* 2238: dup v10.4s, w5 *)
  MlsLane 16 10 14 0; (* 2241: mls v16.4s, v10.4s, v14.s[0] *)
  MlsLane 17 10 14 1; (* 2242: mls v17.4s, v10.4s, v14.s[1] *)
  MlsLane 18 10 14 2; (* 2243: mls v18.4s, v10.4s, v14.s[2] *)
  MlsLane 19 10 14 3; (* 2244: mls v19.4s, v10.4s, v14.s[3] *)
  Label 401; (* 2245: 401: *)
  Tst W 6 (Imm 2); (* 2247: tst w6, #0x2 *)
  B EQ (Fwd 402); (* 2248: beq 402f *)
  Ldr 8 2 params (Imm 8); (* 2249: ldr x2, [%[params], #8] *)
  Alu AAdd false X 2 2 (Lsl row 2); (* 2250: add x2, x2, %x[row], lsl #2 *)
  Ldr 4 5 params (Imm 68); (* 2251: ldr w5, [%[params], #68] *)
  Ld1 16 11 2 (Imm 0); (* 2253: ld1 {v11.4s}, [x2] *)
  Ins 4 13 1 5; (* 2254: ins v13.s[1], w5 *)
  MulLane 11 11 13 1; (* 2256: mul v11.4s, v11.4s, v13.s[1] *)
  V2 (VSub 4) 16 16 11; (* 2259: sub v16.4s, v16.4s, v11.4s *)
  V2 (VSub 4) 17 17 11; (* 2260: sub v17.4s, v17.4s, v11.4s *)
  V2 (VSub 4) 18 18 11; (* 2261: sub v18.4s, v18.4s, v11.4s *)
  V2 (VSub 4) 19 19 11; (* 2262: sub v19.4s, v19.4s, v11.4s *)
  Cmp W dst_type_id (Imm 4); (* 2266: cmp %w[dst_type_id], #4 *)
  B EQ (Fwd 94); (* 2267: beq 94f *)
  Label 402; (* 2269: 402: *)
  Tst W 6 (Imm 32); (* 2279: tst w6, #0x20 *)
  Csel W 3 row col EQ; (* 2280: csel w3, %w[row], %w[col], eq *)
  Ldr 8 1 params (Imm 40); (* 2282: ldr x1, [%[params], #40] *)
  Tst W 6 (Imm 8); (* 2283: tst w6, #0x8 *)
  Alu AAdd false X 5 1 (Lsl 3 2); (* 2284: add x5, x1, x3, lsl #2 *)
  Csel X 1 1 5 EQ; (* 2285: csel x1, x1, x5, eq *)
  Ld1 16 14 1 (Imm 0); (* 2287: ld1 {v14.4s}, [x1] *)
  V2 (Smin 4) 11 8 14; (* 2289: smin v11.4s, v8.4s, v14.4s *)
  Ldr 8 1 lhs_ptr (Imm 8); (* 2290: ldr x1, [%[lhs_ptr], #8] *)
  V2 (VSub 4) 12 14 11; (* 2291: sub v12.4s, v14.4s, v11.4s *)
  Tst W 6 (Imm 32); (* 2294: tst w6, #0x20 *)
  B NE (Fwd 8); (* 2295: bne 8f *)
  V2 (Sshl 4) 16 16 12; (* 2300: sshl v16.4s, v16.4s, v12.4s *)
  Ldr 8 2 lhs_ptr (Imm 24); (* 2301: ldr x2, [%[lhs_ptr], #24] *)
  V2 (Sshl 4) 17 17 12; (* 2302: sshl v17.4s, v17.4s, v12.4s *)
  Ldr 8 3 lhs_ptr (Imm 40); (* 2303: ldr x3, [%[lhs_ptr], #40] *)
  V2 (Sshl 4) 18 18 12; (* 2304: sshl v18.4s, v18.4s, v12.4s *)
  Ldr 8 4 lhs_ptr (Imm 56); (* 2305: ldr x4, [%[lhs_ptr], #56] *)
  V2 (Sshl 4) 19 19 12; (* 2306: sshl v19.4s, v19.4s, v12.4s *)
  Ins 8 0 1 1; (* 2310: ins v0.d[1], x1 *)
  Ldr 8 1 rhs_ptr (Imm 8); (* 2311: ldr x1, [%[rhs_ptr], #8] *)
  V2 (Sqdmulh 4) 16 16 15; (* 2312: sqdmulh v16.4s, v16.4s, v15.4s *)
  Ins 8 1 1 2; (* 2313: ins v1.d[1], x2 *)
  Ldr 8 2 rhs_ptr (Imm 24); (* 2314: ldr x2, [%[rhs_ptr], #24] *)
  V2 (Sqdmulh 4) 17 17 15; (* 2315: sqdmulh v17.4s, v17.4s, v15.4s *)
  Ins 8 2 1 3; (* 2316: ins v2.d[1], x3 *)
  Ldr 8 3 rhs_ptr (Imm 40); (* 2317: ldr x3, [%[rhs_ptr], #40] *)
  V2 (Sqdmulh 4) 18 18 15; (* 2318: sqdmulh v18.4s, v18.4s, v15.4s *)
  Ins 8 3 1 4; (* 2319: ins v3.d[1], x4 *)
  Ldr 8 4 rhs_ptr (Imm 56); (* 2320: ldr x4, [%[rhs_ptr], #56] *)
  V2 (Sqdmulh 4) 19 19 15; (* 2321: sqdmulh v19.4s, v19.4s, v15.4s *)
  V2 (Srshl 4) 16 16 11; (* 2324: srshl v16.4s, v16.4s, v11.4s *)
  V2 (Srshl 4) 17 17 11; (* 2325: srshl v17.4s, v17.4s, v11.4s *)
  V2 (Srshl 4) 18 18 11; (* 2326: srshl v18.4s, v18.4s, v11.4s *)
  V2 (Srshl 4) 19 19 11; (* 2327: srshl v19.4s, v19.4s, v11.4s *)
  B Always (Fwd 9); (* 2329: b 9f *)
  Label 8; (* 2331: 8: *)
  DupLane 4 4 20 12 0; (* 2335: dup v20.4s, v12.s[0] *)
  Ldr 8 2 lhs_ptr (Imm 24); (* 2336: ldr x2, [%[lhs_ptr], #24] *)
  Ldr 8 3 lhs_ptr (Imm 40); (* 2337: ldr x3, [%[lhs_ptr], #40] *)
  DupLane 4 4 21 12 1; (* 2338: dup v21.4s, v12.s[1] *)
  Ldr 8 4 lhs_ptr (Imm 56); (* 2339: ldr x4, [%[lhs_ptr], #56] *)
  DupLane 4 4 22 12 2; (* 2340: dup v22.4s, v12.s[2] *)
  Ins 8 0 1 1; (* 2341: ins v0.d[1], x1 *)
  DupLane 4 4 23 12 3; (* 2342: dup v23.4s, v12.s[3] *)
  Ldr 8 1 rhs_ptr (Imm 8); (* 2343: ldr x1, [%[rhs_ptr], #8] *)
  V2 (Sshl 4) 16 16 20; (* 2344: sshl v16.4s, v16.4s, v20.4s *)
  Ins 8 1 1 2; (* 2345: ins v1.d[1], x2 *)
  V2 (Sshl 4) 17 17 21; (* 2346: sshl v17.4s, v17.4s, v21.4s *)
  Ldr 8 2 rhs_ptr (Imm 24); (* 2347: ldr x2, [%[rhs_ptr], #24] *)
  V2 (Sshl 4) 18 18 22; (* 2348: sshl v18.4s, v18.4s, v22.4s *)
  Ins 8 2 1 3; (* 2349: ins v2.d[1], x3 *)
  V2 (Sshl 4) 19 19 23; (* 2350: sshl v19.4s, v19.4s, v23.4s *)
  Ldr 8 3 rhs_ptr (Imm 40); (* 2351: ldr x3, [%[rhs_ptr], #40] *)
  SqdmulhLane 16 16 15 0; (* 2354: sqdmulh v16.4s, v16.4s, v15.s[0] *)
  Ins 8 3 1 4; (* 2355: ins v3.d[1], x4 *)
  SqdmulhLane 17 17 15 1; (* 2356: sqdmulh v17.4s, v17.4s, v15.s[1] *)
  Ldr 8 4 rhs_ptr (Imm 56); (* 2357: ldr x4, [%[rhs_ptr], #56] *)
  SqdmulhLane 18 18 15 2; (* 2358: sqdmulh v18.4s, v18.4s, v15.s[2] *)
  DupLane 4 4 20 11 0; (* 2359: dup v20.4s, v11.s[0] *)
  SqdmulhLane 19 19 15 3; (* 2360: sqdmulh v19.4s, v19.4s, v15.s[3] *)
  DupLane 4 4 21 11 1; (* 2363: dup v21.4s, v11.s[1] *)
  V2 (Srshl 4) 16 16 20; (* 2364: srshl v16.4s, v16.4s, v20.4s *)
  DupLane 4 4 22 11 2; (* 2365: dup v22.4s, v11.s[2] *)
  V2 (Srshl 4) 17 17 21; (* 2366: srshl v17.4s, v17.4s, v21.4s *)
  DupLane 4 4 23 11 3; (* 2367: dup v23.4s, v11.s[3] *)
  V2 (Srshl 4) 18 18 22; (* 2368: srshl v18.4s, v18.4s, v22.4s *)
  V2 (Srshl 4) 19 19 23; (* 2369: srshl v19.4s, v19.4s, v23.4s *)
  Label 9; (* 2371: 9: *)
  Cmp W dst_type_id (Imm 3); (* 2373: cmp %w[dst_type_id], #3 *)
  B EQ (Fwd 93); (* 2374: beq 93f *)
  Cmp W dst_type_id (Imm 2); (* 2375: cmp %w[dst_type_id], #2 *)
  B EQ (Fwd 92); (* 2376: beq 92f *)
  Label 91; (* 2378: 91: *)
  Ins 8 4 1 1; (* 2380: ins v4.d[1], x1 *)
  Narrow false false 2 16 16; (* 2381: sqxtn v16.4h, v16.4s *)
  Ins 8 5 1 2; (* 2382: ins v5.d[1], x2 *)
  Narrow false true 2 16 17; (* 2383: sqxtn2 v16.8h, v17.4s *)
  Ins 8 6 1 3; (* 2384: ins v6.d[1], x3 *)
  Narrow false false 2 17 18; (* 2385: sqxtn v17.4h, v18.4s *)
  Ins 8 7 1 4; (* 2386: ins v7.d[1], x4 *)
  Movi 18 0; (* 2387: movi v18.4s, #0 *)
  Narrow false true 2 17 19; (* 2388: sqxtn2 v17.8h, v19.4s *)
  Movi 19 0; (* 2393: movi v19.4s, #0 *)
  Alu AAdd false X lhs_ptr lhs_ptr (Imm 64); (* 2396: add %[lhs_ptr], %[lhs_ptr], #64 *)
  DupLane 2 8 14 13 4; (* 2397: dup v14.8h, v13.h[4] *)
  Movi 20 0; (* 2398: movi v20.4s, #0 *)
  Alu AAdd false X rhs_ptr rhs_ptr (Imm 64); (* 2399: add %[rhs_ptr], %[rhs_ptr], #64 *)
  V2 (Sqadd 2) 16 16 14; (* 2400: sqadd v16.8h, v16.8h, v14.8h *)
  Movi 21 0; (* 2401: movi v21.4s, #0 *)
  V2 (Sqadd 2) 17 17 14; (* 2402: sqadd v17.8h, v17.8h, v14.8h *)
  Movi 22 0; (* 2403: movi v22.4s, #0 *)
  Narrow true false 1 16 16; (* 2406: sqxtun v16.8b, v16.8h *)
  Movi 23 0; (* 2407: movi v23.4s, #0 *)
  Narrow true true 1 16 17; (* 2408: sqxtun2 v16.16b, v17.8h *)
  Movi 24 0; (* 2409: movi v24.4s, #0 *)
  Ldr 1 2 params (Imm 120); (* 2412: ldrb w2, [%[params], #120] *)
  Movi 25 0; (* 2413: movi v25.4s, #0 *)
  Ldr 1 3 params (Imm 124); (* 2414: ldrb w3, [%[params], #124] *)
  Movi 26 0; (* 2415: movi v26.4s, #0 *)
  Dup 1 16 14 2; (* 2416: dup v14.16b, w2 *)
  Movi 27 0; (* 2417: movi v27.4s, #0 *)
  Dup 1 16 15 3; (* 2418: dup v15.16b, w3 *)
  Movi 28 0; (* 2419: movi v28.4s, #0 *)
  V2 (Umax 1) 16 16 14; (* 2422: umax v16.16b, v16.16b, v14.16b *)
  Movi 29 0; (* 2423: movi v29.4s, #0 *)
  V2 (Umin 1) 16 16 15; (* 2425: umin v16.16b, v16.16b, v15.16b *)
  Movi 30 0; (* 2426: movi v30.4s, #0 *)
  Alu ASub false W 1 dst_rows (Reg row); (* 2433: sub w1, %w[dst_rows], %w[row] *)
  Movi 31 0; (* 2434: movi v31.4s, #0 *)
  Alu ASub false W 2 dst_cols (Reg col); (* 2435: sub w2, %w[dst_cols], %w[col] *)
  Mov W 3 (Imm 4); (* 2436: mov w3, #4 *)
  Cmp W 1 (Imm 4); (* 2437: cmp w1, #4 *)
  Csel W 1 1 3 LE; (* 2439: csel w1, w1, w3, le *)
  Cmp W 2 (Imm 4); (* 2440: cmp w2, #4 *)
  Csel W 2 2 3 LE; (* 2442: csel w2, w2, w3, le *)
  Cmp W 1 (Reg 3); (* 2445: cmp w1, w3 *)
  Ccmp W 2 (Reg 3) EQ; (* 2446: ccmp w2, w3, 0, eq *)
  Mov X 4 (Reg dst_ptr); (* 2447: mov x4, %[dst_ptr] *)
  B EQ (Fwd 30); (* 2449: beq 30f *)
  St1 16 16 dst_tmp_buf (Imm 0); (* 2452: st1 {v16.16b}, [%[dst_tmp_buf]] *)
  Mov X 3 (Reg dst_tmp_buf); (* 2454: mov x3, %[dst_tmp_buf] *)
  Mov W 6 (Imm 0); (* 2455: mov w6, #0 *)
  Label 50; (* 2456: 50: *)
  Nop; (* 2457: prfm pstl1strm, [x4] *)
  Mov W 5 (Imm 0); (* 2458: mov w5, #0 *)
  Label 51; (* 2459: 51: *)
  Ldr 1 7 3 (Uxtw 5); (* 2460: ldrb w7, [x3, w5, uxtw] *)
  Str 1 7 4 (Uxtw 5); (* 2461: strb w7, [x4, w5, uxtw] *)
  Alu AAdd false W 5 5 (Imm 1); (* 2462: add w5, w5, #1 *)
  Cmp W 5 (Reg 1); (* 2463: cmp w5, w1 *)
  B LT (Back 51); (* 2464: blt 51b *)
  Alu AAdd false W 6 6 (Imm 1); (* 2465: add w6, w6, #1 *)
  Alu AAdd false X 3 3 (Imm 4); (* 2466: add x3, x3, #4 *)
  Alu AAdd false X 4 4 (Reg 11); (* 2467: add x4, x4, x11 *)
  Cmp W 6 (Reg 2); (* 2468: cmp w6, w2 *)
  B LT (Back 50); (* 2469: blt 50b *)
  B Always (Fwd 31); (* 2470: b 31f *)
  Label 30; (* 2471: 30: *)
  Nop; (* 2473: prfm pstl1strm, [x4] *)
  Mov X 3 (Reg 4); (* 2474: mov x3, x4 *)
  St1Lane 1 16 0 3 (Imm 1); (* 2475: st1 {v16.b}[0], [x3], #1 *)
  Alu AAdd false X 4 4 (Reg 11); (* 2476: add x4, x4, x11 *)
  St1Lane 1 16 1 3 (Imm 1); (* 2477: st1 {v16.b}[1], [x3], #1 *)
  St1Lane 1 16 2 3 (Imm 1); (* 2478: st1 {v16.b}[2], [x3], #1 *)
  St1Lane 1 16 3 3 (Imm 1); (* 2479: st1 {v16.b}[3], [x3], #1 *)
  Nop; (* 2480: prfm pstl1strm, [x4] *)
  Mov X 3 (Reg 4); (* 2481: mov x3, x4 *)
  St1Lane 1 16 4 3 (Imm 1); (* 2482: st1 {v16.b}[4], [x3], #1 *)
  Alu AAdd false X 4 4 (Reg 11); (* 2483: add x4, x4, x11 *)
  St1Lane 1 16 5 3 (Imm 1); (* 2484: st1 {v16.b}[5], [x3], #1 *)
  St1Lane 1 16 6 3 (Imm 1); (* 2485: st1 {v16.b}[6], [x3], #1 *)
  St1Lane 1 16 7 3 (Imm 1); (* 2486: st1 {v16.b}[7], [x3], #1 *)
  Nop; (* 2487: prfm pstl1strm, [x4] *)
  Mov X 3 (Reg 4); (* 2488: mov x3, x4 *)
  St1Lane 1 16 8 3 (Imm 1); (* 2489: st1 {v16.b}[8], [x3], #1 *)
  Alu AAdd false X 4 4 (Reg 11); (* 2490: add x4, x4, x11 *)
  St1Lane 1 16 9 3 (Imm 1); (* 2491: st1 {v16.b}[9], [x3], #1 *)
  St1Lane 1 16 10 3 (Imm 1); (* 2492: st1 {v16.b}[10], [x3], #1 *)
  St1Lane 1 16 11 3 (Imm 1); (* 2493: st1 {v16.b}[11], [x3], #1 *)
  Nop; (* 2494: prfm pstl1strm, [x4] *)
  Mov X 3 (Reg 4); (* 2495: mov x3, x4 *)
  St1Lane 1 16 12 3 (Imm 1); (* 2496: st1 {v16.b}[12], [x3], #1 *)
  Alu AAdd false X 4 4 (Reg 11); (* 2497: add x4, x4, x11 *)
  St1Lane 1 16 13 3 (Imm 1); (* 2498: st1 {v16.b}[13], [x3], #1 *)
  St1Lane 1 16 14 3 (Imm 1); (* 2499: st1 {v16.b}[14], [x3], #1 *)
  St1Lane 1 16 15 3 (Imm 1); (* 2500: st1 {v16.b}[15], [x3], #1 *)
  Label 31; (* 2501: 31: *)
  Alu AAdd false X dst_ptr dst_ptr (Imm 4); (* 2503: add %[dst_ptr], %[dst_ptr], #4 *)
  Movi 16 0; (* 2505: movi v16.4s, #0 *)
  Movi 17 0; (* 2506: movi v17.4s, #0 *)
  B Always (Fwd 99); (* 2508: b 99f *)
  Label 92; (* 2510: 92: *)
  Ins 8 4 1 1; (* 2512: ins v4.d[1], x1 *)
  Narrow false false 2 16 16; (* 2513: sqxtn v16.4h, v16.4s *)
  Ins 8 5 1 2; (* 2514: ins v5.d[1], x2 *)
  Narrow false true 2 16 17; (* 2515: sqxtn2 v16.8h, v17.4s *)
  Ins 8 6 1 3; (* 2516: ins v6.d[1], x3 *)
  Narrow false false 2 17 18; (* 2517: sqxtn v17.4h, v18.4s *)
  Ins 8 7 1 4; (* 2518: ins v7.d[1], x4 *)
  Movi 18 0; (* 2519: movi v18.4s, #0 *)
  Narrow false true 2 17 19; (* 2520: sqxtn2 v17.8h, v19.4s *)
  Movi 19 0; (* 2525: movi v19.4s, #0 *)
  Alu AAdd false X lhs_ptr lhs_ptr (Imm 64); (* 2528: add %[lhs_ptr], %[lhs_ptr], #64 *)
  DupLane 2 8 14 13 4; (* 2529: dup v14.8h, v13.h[4] *)
  Movi 20 0; (* 2530: movi v20.4s, #0 *)
  Alu AAdd false X rhs_ptr rhs_ptr (Imm 64); (* 2531: add %[rhs_ptr], %[rhs_ptr], #64 *)
  V2 (Sqadd 2) 16 16 14; (* 2532: sqadd v16.8h, v16.8h, v14.8h *)
  Movi 21 0; (* 2533: movi v21.4s, #0 *)
  V2 (Sqadd 2) 17 17 14; (* 2534: sqadd v17.8h, v17.8h, v14.8h *)
  Movi 22 0; (* 2535: movi v22.4s, #0 *)
  Narrow false false 1 16 16; (* 2538: sqxtn v16.8b, v16.8h *)
  Movi 23 0; (* 2539: movi v23.4s, #0 *)
  Narrow false true 1 16 17; (* 2540: sqxtn2 v16.16b, v17.8h *)
  Movi 24 0; (* 2541: movi v24.4s, #0 *)
  Ldr 1 2 params (Imm 120); (* 2544: ldrb w2, [%[params], #120] *)
  Movi 25 0; (* 2545: movi v25.4s, #0 *)
  Ldr 1 3 params (Imm 124); (* 2546: ldrb w3, [%[params], #124] *)
  Movi 26 0; (* 2547: movi v26.4s, #0 *)
  Dup 1 16 14 2; (* 2548: dup v14.16b, w2 *)
  Movi 27 0; (* 2549: movi v27.4s, #0 *)
  Dup 1 16 15 3; (* 2550: dup v15.16b, w3 *)
  Movi 28 0; (* 2551: movi v28.4s, #0 *)
  V2 (Smax 1) 16 16 14; (* 2554: smax v16.16b, v16.16b, v14.16b *)
  Movi 29 0; (* 2555: movi v29.4s, #0 *)
  V2 (Smin 1) 16 16 15; (* 2557: smin v16.16b, v16.16b, v15.16b *)
  Movi 30 0; (* 2558: movi v30.4s, #0 *)
  Alu ASub false W 1 dst_rows (Reg row); (* 2565: sub w1, %w[dst_rows], %w[row] *)
  Movi 31 0; (* 2566: movi v31.4s, #0 *)
  Alu ASub false W 2 dst_cols (Reg col); (* 2567: sub w2, %w[dst_cols], %w[col] *)
  Mov W 3 (Imm 4); (* 2568: mov w3, #4 *)
  Cmp W 1 (Imm 4); (* 2569: cmp w1, #4 *)
  Csel W 1 1 3 LE; (* 2571: csel w1, w1, w3, le *)
  Cmp W 2 (Imm 4); (* 2572: cmp w2, #4 *)
  Csel W 2 2 3 LE; (* 2574: csel w2, w2, w3, le *)
  Cmp W 1 (Reg 3); (* 2577: cmp w1, w3 *)
  Ccmp W 2 (Reg 3) EQ; (* 2578: ccmp w2, w3, 0, eq *)
  Mov X 4 (Reg dst_ptr); (* 2579: mov x4, %[dst_ptr] *)
  B EQ (Fwd 30); (* 2581: beq 30f *)
  St1 16 16 dst_tmp_buf (Imm 0); (* 2584: st1 {v16.16b}, [%[dst_tmp_buf]] *)
  Mov X 3 (Reg dst_tmp_buf); (* 2586: mov x3, %[dst_tmp_buf] *)
  Mov W 6 (Imm 0); (* 2587: mov w6, #0 *)
  Label 50; (* 2588: 50: *)
  Nop; (* 2589: prfm pstl1strm, [x4] *)
  Mov W 5 (Imm 0); (* 2590: mov w5, #0 *)
  Label 51; (* 2591: 51: *)
  Ldr 1 7 3 (Uxtw 5); (* 2592: ldrb w7, [x3, w5, uxtw] *)
  Str 1 7 4 (Uxtw 5); (* 2593: strb w7, [x4, w5, uxtw] *)
  Alu AAdd false W 5 5 (Imm 1); (* 2594: add w5, w5, #1 *)
  Cmp W 5 (Reg 1); (* 2595: cmp w5, w1 *)
  B LT (Back 51); (* 2596: blt 51b *)
  Alu AAdd false W 6 6 (Imm 1); (* 2597: add w6, w6, #1 *)
  Alu AAdd false X 3 3 (Imm 4); (* 2598: add x3, x3, #4 *)
  Alu AAdd false X 4 4 (Reg 11); (* 2599: add x4, x4, x11 *)
  Cmp W 6 (Reg 2); (* 2600: cmp w6, w2 *)
  B LT (Back 50); (* 2601: blt 50b *)
  B Always (Fwd 31); (* 2602: b 31f *)
  Label 30; (* 2603: 30: *)
  Nop; (* 2605: prfm pstl1strm, [x4] *)
  Mov X 3 (Reg 4); (* 2606: mov x3, x4 *)
  St1Lane 1 16 0 3 (Imm 1); (* 2607: st1 {v16.b}[0], [x3], #1 *)
  Alu AAdd false X 4 4 (Reg 11); (* 2608: add x4, x4, x11 *)
  St1Lane 1 16 1 3 (Imm 1); (* 2609: st1 {v16.b}[1], [x3], #1 *)
  St1Lane 1 16 2 3 (Imm 1); (* 2610: st1 {v16.b}[2], [x3], #1 *)
  St1Lane 1 16 3 3 (Imm 1); (* 2611: st1 {v16.b}[3], [x3], #1 *)
  Nop; (* 2612: prfm pstl1strm, [x4] *)
  Mov X 3 (Reg 4); (* 2613: mov x3, x4 *)
  St1Lane 1 16 4 3 (Imm 1); (* 2614: st1 {v16.b}[4], [x3], #1 *)
  Alu AAdd false X 4 4 (Reg 11); (* 2615: add x4, x4, x11 *)
  St1Lane 1 16 5 3 (Imm 1); (* 2616: st1 {v16.b}[5], [x3], #1 *)
  St1Lane 1 16 6 3 (Imm 1); (* 2617: st1 {v16.b}[6], [x3], #1 *)
  St1Lane 1 16 7 3 (Imm 1); (* 2618: st1 {v16.b}[7], [x3], #1 *)
  Nop; (* 2619: prfm pstl1strm, [x4] *)
  Mov X 3 (Reg 4); (* 2620: mov x3, x4 *)
  St1Lane 1 16 8 3 (Imm 1); (* 2621: st1 {v16.b}[8], [x3], #1 *)
  Alu AAdd false X 4 4 (Reg 11); (* 2622: add x4, x4, x11 *)
  St1Lane 1 16 9 3 (Imm 1); (* 2623: st1 {v16.b}[9], [x3], #1 *)
  St1Lane 1 16 10 3 (Imm 1); (* 2624: st1 {v16.b}[10], [x3], #1 *)
  St1Lane 1 16 11 3 (Imm 1); (* 2625: st1 {v16.b}[11], [x3], #1 *)
  Nop; (* 2626: prfm pstl1strm, [x4] *)
  Mov X 3 (Reg 4); (* 2627: mov x3, x4 *)
  St1Lane 1 16 12 3 (Imm 1); (* 2628: st1 {v16.b}[12], [x3], #1 *)
  Alu AAdd false X 4 4 (Reg 11); (* 2629: add x4, x4, x11 *)
  St1Lane 1 16 13 3 (Imm 1); (* 2630: st1 {v16.b}[13], [x3], #1 *)
  St1Lane 1 16 14 3 (Imm 1); (* 2631: st1 {v16.b}[14], [x3], #1 *)
  St1Lane 1 16 15 3 (Imm 1); (* 2632: st1 {v16.b}[15], [x3], #1 *)
  Label 31; (* 2633: 31: *)
  Alu AAdd false X dst_ptr dst_ptr (Imm 4); (* 2635: add %[dst_ptr], %[dst_ptr], #4 *)
  Movi 16 0; (* 2637: movi v16.4s, #0 *)
  Movi 17 0; (* 2638: movi v17.4s, #0 *)
  B Always (Fwd 99); (* 2640: b 99f *)
  Label 93; (* 2642: 93: *)
  DupLane 2 4 14 13 4; (* 2645: dup v14.4h, v13.h[4] *)
  Saddw 16 16 14; (* 2646: saddw v16.4s, v16.4s, v14.4h *)
  Saddw 17 17 14; (* 2647: saddw v17.4s, v17.4s, v14.4h *)
  Saddw 18 18 14; (* 2648: saddw v18.4s, v18.4s, v14.4h *)
  Saddw 19 19 14; (* 2649: saddw v19.4s, v19.4s, v14.4h *)
  Ins 8 4 1 1; (* 2652: ins v4.d[1], x1 *)
  Narrow false false 2 16 16; (* 2653: sqxtn v16.4h, v16.4s *)
  Ins 8 5 1 2; (* 2654: ins v5.d[1], x2 *)
  Narrow false true 2 16 17; (* 2655: sqxtn2 v16.8h, v17.4s *)
  Ins 8 6 1 3; (* 2656: ins v6.d[1], x3 *)
  Narrow false false 2 17 18; (* 2657: sqxtn v17.4h, v18.4s *)
  Ins 8 7 1 4; (* 2658: ins v7.d[1], x4 *)
  Movi 18 0; (* 2659: movi v18.4s, #0 *)
  Narrow false true 2 17 19; (* 2660: sqxtn2 v17.8h, v19.4s *)
  Movi 19 0; (* 2665: movi v19.4s, #0 *)
  Alu AAdd false X lhs_ptr lhs_ptr (Imm 64); (* 2667: add %[lhs_ptr], %[lhs_ptr], #64 *)
  Movi 20 0; (* 2668: movi v20.4s, #0 *)
  Alu AAdd false X rhs_ptr rhs_ptr (Imm 64); (* 2669: add %[rhs_ptr], %[rhs_ptr], #64 *)
  Movi 21 0; (* 2670: movi v21.4s, #0 *)
  Movi 22 0; (* 2671: movi v22.4s, #0 *)
  Movi 23 0; (* 2673: movi v23.4s, #0 *)
  Movi 24 0; (* 2674: movi v24.4s, #0 *)
  Ldr 2 2 params (Imm 120); (* 2677: ldrh w2, [%[params], #120] *)
  Movi 25 0; (* 2678: movi v25.4s, #0 *)
  Ldr 2 3 params (Imm 124); (* 2679: ldrh w3, [%[params], #124] *)
  Movi 26 0; (* 2680: movi v26.4s, #0 *)
  Dup 2 8 14 2; (* 2681: dup v14.8h, w2 *)
  Movi 27 0; (* 2682: movi v27.4s, #0 *)
  Dup 2 8 15 3; (* 2683: dup v15.8h, w3 *)
  Movi 28 0; (* 2684: movi v28.4s, #0 *)
  V2 (Smax 2) 16 16 14; (* 2687: smax v16.8h, v16.8h, v14.8h *)
  V2 (Smax 2) 17 17 14; (* 2688: smax v17.8h, v17.8h, v14.8h *)
  Movi 29 0; (* 2689: movi v29.4s, #0 *)
  V2 (Smin 2) 16 16 15; (* 2691: smin v16.8h, v16.8h, v15.8h *)
  V2 (Smin 2) 17 17 15; (* 2692: smin v17.8h, v17.8h, v15.8h *)
  Movi 30 0; (* 2693: movi v30.4s, #0 *)
  Alu ASub false W 1 dst_rows (Reg row); (* 2700: sub w1, %w[dst_rows], %w[row] *)
  Movi 31 0; (* 2701: movi v31.4s, #0 *)
  Alu ASub false W 2 dst_cols (Reg col); (* 2702: sub w2, %w[dst_cols], %w[col] *)
  Mov W 3 (Imm 4); (* 2703: mov w3, #4 *)
  Cmp W 1 (Imm 4); (* 2704: cmp w1, #4 *)
  Csel W 1 1 3 LE; (* 2706: csel w1, w1, w3, le *)
  Cmp W 2 (Imm 4); (* 2707: cmp w2, #4 *)
  Csel W 2 2 3 LE; (* 2709: csel w2, w2, w3, le *)
  Cmp W 1 (Reg 3); (* 2712: cmp w1, w3 *)
  Ccmp W 2 (Reg 3) EQ; (* 2713: ccmp w2, w3, 0, eq *)
  Mov X 4 (Reg dst_ptr); (* 2714: mov x4, %[dst_ptr] *)
  B EQ (Fwd 30); (* 2716: beq 30f *)
  StrQ 16 dst_tmp_buf (Imm 0); (* 2719: str q16, [%[dst_tmp_buf], #0] *)
  StrQ 17 dst_tmp_buf (Imm 16); (* 2720: str q17, [%[dst_tmp_buf], #16] *)
  Mov X 3 (Reg dst_tmp_buf); (* 2722: mov x3, %[dst_tmp_buf] *)
  Mov W 6 (Imm 0); (* 2723: mov w6, #0 *)
  Label 50; (* 2724: 50: *)
  Nop; (* 2725: prfm pstl1strm, [x4] *)
  Mov W 5 (Imm 0); (* 2726: mov w5, #0 *)
  Label 51; (* 2727: 51: *)
  Ldr 2 7 3 (Lsl 5 1); (* 2728: ldrh w7, [x3, x5, lsl #1] *)
  Str 2 7 4 (Lsl 5 1); (* 2729: strh w7, [x4, x5, lsl #1] *)
  Alu AAdd false W 5 5 (Imm 1); (* 2730: add w5, w5, #1 *)
  Cmp W 5 (Reg 1); (* 2731: cmp w5, w1 *)
  B LT (Back 51); (* 2732: blt 51b *)
  Alu AAdd false W 6 6 (Imm 1); (* 2733: add w6, w6, #1 *)
  Alu AAdd false X 3 3 (Imm 8); (* 2734: add x3, x3, #8 *)
  Alu AAdd false X 4 4 (Reg 11); (* 2735: add x4, x4, x11 *)
  Cmp W 6 (Reg 2); (* 2736: cmp w6, w2 *)
  B LT (Back 50); (* 2737: blt 50b *)
  B Always (Fwd 31); (* 2738: b 31f *)
  Label 30; (* 2739: 30: *)
  Nop; (* 2741: prfm pstl1strm, [x4] *)
  Mov X 3 (Reg 4); (* 2742: mov x3, x4 *)
  St1Lane 2 16 0 3 (Imm 2); (* 2743: st1 {v16.h}[0], [x3], #2 *)
  Alu AAdd false X 4 4 (Reg 11); (* 2744: add x4, x4, x11 *)
  St1Lane 2 16 1 3 (Imm 2); (* 2745: st1 {v16.h}[1], [x3], #2 *)
  St1Lane 2 16 2 3 (Imm 2); (* 2746: st1 {v16.h}[2], [x3], #2 *)
  St1Lane 2 16 3 3 (Imm 2); (* 2747: st1 {v16.h}[3], [x3], #2 *)
  Nop; (* 2748: prfm pstl1strm, [x4] *)
  Mov X 3 (Reg 4); (* 2749: mov x3, x4 *)
  St1Lane 2 16 4 3 (Imm 2); (* 2750: st1 {v16.h}[4], [x3], #2 *)
  Alu AAdd false X 4 4 (Reg 11); (* 2751: add x4, x4, x11 *)
  St1Lane 2 16 5 3 (Imm 2); (* 2752: st1 {v16.h}[5], [x3], #2 *)
  St1Lane 2 16 6 3 (Imm 2); (* 2753: st1 {v16.h}[6], [x3], #2 *)
  St1Lane 2 16 7 3 (Imm 2); (* 2754: st1 {v16.h}[7], [x3], #2 *)
  Nop; (* 2755: prfm pstl1strm, [x4] *)
  Mov X 3 (Reg 4); (* 2756: mov x3, x4 *)
  St1Lane 2 17 0 3 (Imm 2); (* 2757: st1 {v17.h}[0], [x3], #2 *)
  Alu AAdd false X 4 4 (Reg 11); (* 2758: add x4, x4, x11 *)
  St1Lane 2 17 1 3 (Imm 2); (* 2759: st1 {v17.h}[1], [x3], #2 *)
  St1Lane 2 17 2 3 (Imm 2); (* 2760: st1 {v17.h}[2], [x3], #2 *)
  St1Lane 2 17 3 3 (Imm 2); (* 2761: st1 {v17.h}[3], [x3], #2 *)
  Nop; (* 2762: prfm pstl1strm, [x4] *)
  Mov X 3 (Reg 4); (* 2763: mov x3, x4 *)
  St1Lane 2 17 4 3 (Imm 2); (* 2764: st1 {v17.h}[4], [x3], #2 *)
  Alu AAdd false X 4 4 (Reg 11); (* 2765: add x4, x4, x11 *)
  St1Lane 2 17 5 3 (Imm 2); (* 2766: st1 {v17.h}[5], [x3], #2 *)
  St1Lane 2 17 6 3 (Imm 2); (* 2767: st1 {v17.h}[6], [x3], #2 *)
  St1Lane 2 17 7 3 (Imm 2); (* 2768: st1 {v17.h}[7], [x3], #2 *)
  Label 31; (* 2769: 31: *)
  Alu AAdd false X dst_ptr dst_ptr (Imm 8); (* 2771: add %[dst_ptr], %[dst_ptr], #8 *)
  Movi 16 0; (* 2773: movi v16.4s, #0 *)
  Movi 17 0; (* 2774: movi v17.4s, #0 *)
  B Always (Fwd 99); (* 2776: b 99f *)
  Label 94; (* 2778: 94: *)
  Ldr 8 1 lhs_ptr (Imm 8); (* 2780: ldr x1, [%[lhs_ptr], #8] *)
  Ldr 8 2 lhs_ptr (Imm 24); (* 2781: ldr x2, [%[lhs_ptr], #24] *)
  Ldr 8 3 lhs_ptr (Imm 40); (* 2782: ldr x3, [%[lhs_ptr], #40] *)
  Ldr 8 4 lhs_ptr (Imm 56); (* 2783: ldr x4, [%[lhs_ptr], #56] *)
  Ins 8 0 1 1; (* 2785: ins v0.d[1], x1 *)
  Ldr 8 1 rhs_ptr (Imm 8); (* 2786: ldr x1, [%[rhs_ptr], #8] *)
  Ins 8 1 1 2; (* 2787: ins v1.d[1], x2 *)
  Ldr 8 2 rhs_ptr (Imm 24); (* 2788: ldr x2, [%[rhs_ptr], #24] *)
  Ins 8 2 1 3; (* 2789: ins v2.d[1], x3 *)
  Ldr 8 3 rhs_ptr (Imm 40); (* 2790: ldr x3, [%[rhs_ptr], #40] *)
  Ins 8 3 1 4; (* 2791: ins v3.d[1], x4 *)
  Ldr 8 4 rhs_ptr (Imm 56); (* 2792: ldr x4, [%[rhs_ptr], #56] *)
  Ins 8 4 1 1; (* 2793: ins v4.d[1], x1 *)
  Ins 8 5 1 2; (* 2794: ins v5.d[1], x2 *)
  Ins 8 6 1 3; (* 2795: ins v6.d[1], x3 *)
  Ins 8 7 1 4; (* 2796: ins v7.d[1], x4 *)
  Movi 20 0; (* 2805: movi v20.4s, #0 *)
  Alu AAdd false X lhs_ptr lhs_ptr (Imm 64); (* 2806: add %[lhs_ptr], %[lhs_ptr], #64 *)
  Movi 21 0; (* 2807: movi v21.4s, #0 *)
  Alu AAdd false X rhs_ptr rhs_ptr (Imm 64); (* 2808: add %[rhs_ptr], %[rhs_ptr], #64 *)
  Movi 22 0; (* 2809: movi v22.4s, #0 *)
  Movi 23 0; (* 2811: movi v23.4s, #0 *)
  Movi 24 0; (* 2812: movi v24.4s, #0 *)
  Movi 25 0; (* 2813: movi v25.4s, #0 *)
  Movi 26 0; (* 2814: movi v26.4s, #0 *)
  Movi 27 0; (* 2815: movi v27.4s, #0 *)
  Movi 28 0; (* 2816: movi v28.4s, #0 *)
  Movi 29 0; (* 2817: movi v29.4s, #0 *)
  Movi 30 0; (* 2818: movi v30.4s, #0 *)
  Alu ASub false W 1 dst_rows (Reg row); (* 2825: sub w1, %w[dst_rows], %w[row] *)
  Movi 31 0; (* 2826: movi v31.4s, #0 *)
  Alu ASub false W 2 dst_cols (Reg col); (* 2827: sub w2, %w[dst_cols], %w[col] *)
  Mov W 3 (Imm 4); (* 2828: mov w3, #4 *)
  Cmp W 1 (Imm 4); (* 2829: cmp w1, #4 *)
  Csel W 1 1 3 LE; (* 2831: csel w1, w1, w3, le *)
  Cmp W 2 (Imm 4); (* 2832: cmp w2, #4 *)
  Csel W 2 2 3 LE; (* 2834: csel w2, w2, w3, le *)
  Cmp W 1 (Reg 3); (* 2837: cmp w1, w3 *)
  Ccmp W 2 (Reg 3) EQ; (* 2838: ccmp w2, w3, 0, eq *)
  Mov X 4 (Reg dst_ptr); (* 2839: mov x4, %[dst_ptr] *)
  B EQ (Fwd 30); (* 2841: beq 30f *)
  StrQ 16 dst_tmp_buf (Imm 0); (* 2844: str q16, [%[dst_tmp_buf], #0] *)
  StrQ 17 dst_tmp_buf (Imm 16); (* 2845: str q17, [%[dst_tmp_buf], #16] *)
  StrQ 18 dst_tmp_buf (Imm 32); (* 2846: str q18, [%[dst_tmp_buf], #32] *)
  StrQ 19 dst_tmp_buf (Imm 48); (* 2847: str q19, [%[dst_tmp_buf], #48] *)
  Mov X 3 (Reg dst_tmp_buf); (* 2849: mov x3, %[dst_tmp_buf] *)
  Mov W 6 (Imm 0); (* 2850: mov w6, #0 *)
  Label 50; (* 2851: 50: *)
  Nop; (* 2852: prfm pstl1strm, [x4] *)
  Mov W 5 (Imm 0); (* 2853: mov w5, #0 *)
  Label 51; (* 2854: 51: *)
  Ldr 4 7 3 (Lsl 5 2); (* 2855: ldr w7, [x3, x5, lsl #2] *)
  Str 4 7 4 (Lsl 5 2); (* 2856: str w7, [x4, x5, lsl #2] *)
  Alu AAdd false W 5 5 (Imm 1); (* 2857: add w5, w5, #1 *)
  Cmp W 5 (Reg 1); (* 2858: cmp w5, w1 *)
  B LT (Back 51); (* 2859: blt 51b *)
  Alu AAdd false W 6 6 (Imm 1); (* 2860: add w6, w6, #1 *)
  Alu AAdd false X 3 3 (Imm 16); (* 2861: add x3, x3, #16 *)
  Alu AAdd false X 4 4 (Reg 11); (* 2862: add x4, x4, x11 *)
  Cmp W 6 (Reg 2); (* 2863: cmp w6, w2 *)
  B LT (Back 50); (* 2864: blt 50b *)
  B Always (Fwd 31); (* 2865: b 31f *)
  Label 30; (* 2866: 30: *)
  Nop; (* 2868: prfm pstl1strm, [x4] *)
  Mov X 3 (Reg 4); (* 2869: mov x3, x4 *)
  St1Lane 4 16 0 3 (Imm 4); (* 2870: st1 {v16.s}[0], [x3], #4 *)
  Alu AAdd false X 4 4 (Reg 11); (* 2871: add x4, x4, x11 *)
  St1Lane 4 16 1 3 (Imm 4); (* 2872: st1 {v16.s}[1], [x3], #4 *)
  St1Lane 4 16 2 3 (Imm 4); (* 2873: st1 {v16.s}[2], [x3], #4 *)
  St1Lane 4 16 3 3 (Imm 4); (* 2874: st1 {v16.s}[3], [x3], #4 *)
  Nop; (* 2875: prfm pstl1strm, [x4] *)
  Mov X 3 (Reg 4); (* 2876: mov x3, x4 *)
  St1Lane 4 17 0 3 (Imm 4); (* 2877: st1 {v17.s}[0], [x3], #4 *)
  Alu AAdd false X 4 4 (Reg 11); (* 2878: add x4, x4, x11 *)
  St1Lane 4 17 1 3 (Imm 4); (* 2879: st1 {v17.s}[1], [x3], #4 *)
  St1Lane 4 17 2 3 (Imm 4); (* 2880: st1 {v17.s}[2], [x3], #4 *)
  St1Lane 4 17 3 3 (Imm 4); (* 2881: st1 {v17.s}[3], [x3], #4 *)
  Nop; (* 2882: prfm pstl1strm, [x4] *)
  Mov X 3 (Reg 4); (* 2883: mov x3, x4 *)
  St1Lane 4 18 0 3 (Imm 4); (* 2884: st1 {v18.s}[0], [x3], #4 *)
  Alu AAdd false X 4 4 (Reg 11); (* 2885: add x4, x4, x11 *)
  St1Lane 4 18 1 3 (Imm 4); (* 2886: st1 {v18.s}[1], [x3], #4 *)
  St1Lane 4 18 2 3 (Imm 4); (* 2887: st1 {v18.s}[2], [x3], #4 *)
  St1Lane 4 18 3 3 (Imm 4); (* 2888: st1 {v18.s}[3], [x3], #4 *)
  Nop; (* 2889: prfm pstl1strm, [x4] *)
  Mov X 3 (Reg 4); (* 2890: mov x3, x4 *)
  St1Lane 4 19 0 3 (Imm 4); (* 2891: st1 {v19.s}[0], [x3], #4 *)
  Alu AAdd false X 4 4 (Reg 11); (* 2892: add x4, x4, x11 *)
  St1Lane 4 19 1 3 (Imm 4); (* 2893: st1 {v19.s}[1], [x3], #4 *)
  St1Lane 4 19 2 3 (Imm 4); (* 2894: st1 {v19.s}[2], [x3], #4 *)
  St1Lane 4 19 3 3 (Imm 4); (* 2895: st1 {v19.s}[3], [x3], #4 *)
  Label 31; (* 2896: 31: *)
  Alu AAdd false X dst_ptr dst_ptr (Imm 16); (* 2898: add %[dst_ptr], %[dst_ptr], #16 *)
  Movi 16 0; (* 2900: movi v16.4s, #0 *)
  Movi 17 0; (* 2901: movi v17.4s, #0 *)
  Movi 18 0; (* 2902: movi v18.4s, #0 *)
  Movi 19 0; (* 2903: movi v19.4s, #0 *)
  Label 99; (* 2905: 99: *)
  Smull 8 0 4; (* 2909: smull    v8.8h,  v0.8b,  v4.8b *)
  Smull 9 1 4; (* 2910: smull    v9.8h,  v1.8b,  v4.8b *)
  Smull 10 2 4; (* 2911: smull    v10.8h,  v2.8b,  v4.8b *)
  Ldr 8 5 params (Imm 24); (* 2914: ldr x5, [%[params], #24] *)
  Smull 11 3 4; (* 2915: smull    v11.8h,  v3.8b,  v4.8b *)
  Ldr 4 6 params (Imm 80); (* 2916: ldr w6, [%[params], #80] *)
  Smull 12 0 5; (* 2917: smull    v12.8h,  v0.8b,  v5.8b *)
  Ldr 4 7 params (Imm 88); (* 2918: ldr w7, [%[params], #88] *)
  Smull 13 1 5; (* 2919: smull    v13.8h,  v1.8b,  v5.8b *)
  Smull 14 2 5; (* 2920: smull    v14.8h,  v2.8b,  v5.8b *)
  Smull 15 3 5; (* 2921: smull    v15.8h,  v3.8b,  v5.8b *)
  Cmp W row (Reg 7); (* 2926: cmp %w[row], w7 *)
  Smlal2 8 0 4; (* 2927: smlal2   v8.8h,  v0.16b,  v4.16b *)
  Smlal2 9 1 4; (* 2928: smlal2   v9.8h,  v1.16b,  v4.16b *)
  Smlal2 10 2 4; (* 2929: smlal2   v10.8h,  v2.16b,  v4.16b *)
  Smlal2 11 3 4; (* 2930: smlal2   v11.8h,  v3.16b,  v4.16b *)
  Smlal2 12 0 5; (* 2931: smlal2   v12.8h,  v0.16b,  v5.16b *)
  Smlal2 13 1 5; (* 2932: smlal2   v13.8h,  v1.16b,  v5.16b *)
  Smlal2 14 2 5; (* 2933: smlal2   v14.8h,  v2.16b,  v5.16b *)
  Smlal2 15 3 5; (* 2934: smlal2   v15.8h,  v3.16b,  v5.16b *)
  B EQ (Fwd 20); (* 2937: beq 20f *)
  Alu AAdd false W row row (Imm 4); (* 2939: add %w[row], %w[row], #4 *)
  B Always (Fwd 21); (* 2940: b 21f *)
  Label 20; (* 2941: 20: *)
  Mov W row (Reg 6); (* 2943: mov %w[row], w6 *)
  Alu AAdd false W col col (Imm 4); (* 2944: add %w[col], %w[col], #4 *)
  Alu AAdd false X dst_col_ptr dst_col_ptr (Lsl 11 2); (* 2945: add %[dst_col_ptr], %[dst_col_ptr], x11, lsl #2 *)
  Mov X dst_ptr (Reg dst_col_ptr); (* 2946: mov %[dst_ptr], %[dst_col_ptr] *)
  Label 21; (* 2947: 21: *)
  Cmp W col (Reg 8); (* 2950: cmp %w[col], w8 *)
  Mov W 1 (Imm 16); (* 2955: mov w1, #16 *)
  B LE (Back 1) (* 2957: ble 1b *)
].

(** kernel_arm64.cc:3039-4393, Kernel8bitNeonDotprod. *)
Definition kernel8_dotprod : list instr := [
  Ldr 8 5 params (Imm 24); (* 3039: ldr x5, [%[params], #24] *)
  Ldr 4 6 params (Imm 80); (* 3040: ldr w6, [%[params], #80] *)
  Ldr 4 7 params (Imm 88); (* 3041: ldr w7, [%[params], #88] *)
  Ldr 4 8 params (Imm 92); (* 3042: ldr w8, [%[params], #92] *)
  Ldr 4 9 params (Imm 104); (* 3043: ldr w9, [%[params], #104] *)
  Ldr 4 10 params (Imm 108); (* 3044: ldr w10, [%[params], #108] *)
  Ldr 4 11 params (Imm 112); (* 3045: ldr w11, [%[params], #112] *)
  Ldr 4 12 params (Imm 116); (* 3046: ldr w12, [%[params], #116] *)
  Ld1 16 0 lhs_ptr (Imm 16); (* 3049: ld1 {v0.16b}, [%[lhs_ptr]], #16 *)
  Ld1 16 1 lhs_ptr (Imm 16); (* 3050: ld1 {v1.16b}, [%[lhs_ptr]], #16 *)
  Ld1 16 2 rhs_ptr (Imm 16); (* 3051: ld1 {v2.16b}, [%[rhs_ptr]], #16 *)
  Ld1 16 3 rhs_ptr (Imm 16); (* 3052: ld1 {v3.16b}, [%[rhs_ptr]], #16 *)
  Movi 16 0; (* 3055: movi v16.4s, #0 *)
  Movi 17 0; (* 3056: movi v17.4s, #0 *)
  Movi 18 0; (* 3057: movi v18.4s, #0 *)
  Movi 19 0; (* 3058: movi v19.4s, #0 *)
  Movi 20 0; (* 3059: movi v20.4s, #0 *)
  Movi 21 0; (* 3060: movi v21.4s, #0 *)
  Movi 22 0; (* 3061: movi v22.4s, #0 *)
  Movi 23 0; (* 3062: movi v23.4s, #0 *)
  Movi 24 0; (* 3063: movi v24.4s, #0 *)
  Movi 25 0; (* 3064: movi v25.4s, #0 *)
  Movi 26 0; (* 3065: movi v26.4s, #0 *)
  Movi 27 0; (* 3066: movi v27.4s, #0 *)
  Movi 28 0; (* 3067: movi v28.4s, #0 *)
  Movi 29 0; (* 3068: movi v29.4s, #0 *)
  Movi 30 0; (* 3069: movi v30.4s, #0 *)
  Movi 31 0; (* 3070: movi v31.4s, #0 *)
  Mov W 1 (Imm 4); (* 3075: mov w1, #4 *)
  Inst 0x4f82e010; (* 3079: .inst 0x4f82e010  // sdot v16.4s, v0.16b, v2.4b[0] *)
  Inst 0x4fa2e012; (* 3080: .inst 0x4fa2e012  // sdot v18.4s, v0.16b, v2.4b[1] *)
  Inst 0x4f82e814; (* 3081: .inst 0x4f82e814  // sdot v20.4s, v0.16b, v2.4b[2] *)
  Inst 0x4fa2e816; (* 3082: .inst 0x4fa2e816  // sdot v22.4s, v0.16b, v2.4b[3] *)
  Label 1; (* 3086: 1: *)
  Cmp W 12 (Imm 32); (* 3092: cmp w12, #32 *)
  B LT (Fwd 78); (* 3093: blt 78f *)
  Ld1 16 4 lhs_ptr (Imm 16); (* 3095: ld1 {v4.16b}, [%[lhs_ptr]], #16 *)
  Ld1 16 5 lhs_ptr (Imm 16); (* 3096: ld1 {v5.16b}, [%[lhs_ptr]], #16 *)
  Ld1 16 6 rhs_ptr (Imm 16); (* 3097: ld1 {v6.16b}, [%[rhs_ptr]], #16 *)
  Ld1 16 7 rhs_ptr (Imm 16); (* 3098: ld1 {v7.16b}, [%[rhs_ptr]], #16 *)
  Ld1 16 8 lhs_ptr (Imm 16); (* 3099: ld1 {v8.16b}, [%[lhs_ptr]], #16 *)
  Ld1 16 9 lhs_ptr (Imm 16); (* 3100: ld1 {v9.16b}, [%[lhs_ptr]], #16 *)
  Ld1 16 10 rhs_ptr (Imm 16); (* 3101: ld1 {v10.16b}, [%[rhs_ptr]], #16 *)
  Ld1 16 11 rhs_ptr (Imm 16); (* 3102: ld1 {v11.16b}, [%[rhs_ptr]], #16 *)
  Ld1 16 12 lhs_ptr (Imm 16); (* 3103: ld1 {v12.16b}, [%[lhs_ptr]], #16 *)
  Ld1 16 13 lhs_ptr (Imm 16); (* 3104: ld1 {v13.16b}, [%[lhs_ptr]], #16 *)
  Ld1 16 14 rhs_ptr (Imm 16); (* 3105: ld1 {v14.16b}, [%[rhs_ptr]], #16 *)
  Ld1 16 15 rhs_ptr (Imm 16); (* 3106: ld1 {v15.16b}, [%[rhs_ptr]], #16 *)
  Mov W 1 (Imm 16); (* 3107: mov w1, #16 *)
  Alu AAnd false W 3 12 (Imm (-16)); (* 3109: and w3, w12, #-16 *)
  Label 81; (* 3110: 81: *)
  Alu AAdd false W 1 1 (Imm 16); (* 3111: add w1, w1, #16 *)
  Inst 0x4f83e018; (* 3113: .inst 0x4f83e018  // sdot v24.4s, v0.16b, v3.4b[0] *)
  Inst 0x4fa3e01a; (* 3114: .inst 0x4fa3e01a  // sdot v26.4s, v0.16b, v3.4b[1] *)
  Inst 0x4f83e81c; (* 3115: .inst 0x4f83e81c  // sdot v28.4s, v0.16b, v3.4b[2] *)
  Inst 0x4fa3e81e; (* 3116: .inst 0x4fa3e81e  // sdot v30.4s, v0.16b, v3.4b[3] *)
  LdrQ 0 lhs_ptr (Imm 0); (* 3117: ldr q0, [%[lhs_ptr], #0] *)
  Inst 0x4f82e031; (* 3118: .inst 0x4f82e031  // sdot v17.4s, v1.16b, v2.4b[0] *)
  Inst 0x4fa2e033; (* 3119: .inst 0x4fa2e033  // sdot v19.4s, v1.16b, v2.4b[1] *)
  Inst 0x4f82e835; (* 3120: .inst 0x4f82e835  // sdot v21.4s, v1.16b, v2.4b[2] *)
  Inst 0x4fa2e837; (* 3121: .inst 0x4fa2e837  // sdot v23.4s, v1.16b, v2.4b[3] *)
  LdrQ 2 rhs_ptr (Imm 0); (* 3122: ldr q2, [%[rhs_ptr], #0] *)
  Inst 0x4f83e039; (* 3123: .inst 0x4f83e039  // sdot v25.4s, v1.16b, v3.4b[0] *)
  Inst 0x4fa3e03b; (* 3124: .inst 0x4fa3e03b  // sdot v27.4s, v1.16b, v3.4b[1] *)
  Inst 0x4f83e83d; (* 3125: .inst 0x4f83e83d  // sdot v29.4s, v1.16b, v3.4b[2] *)
  Inst 0x4fa3e83f; (* 3126: .inst 0x4fa3e83f  // sdot v31.4s, v1.16b, v3.4b[3] *)
  LdrQ 1 lhs_ptr (Imm 16); (* 3127: ldr q1, [%[lhs_ptr], #16] *)
  Inst 0x4f87e098; (* 3129: .inst 0x4f87e098  // sdot v24.4s, v4.16b, v7.4b[0] *)
  Inst 0x4fa7e09a; (* 3130: .inst 0x4fa7e09a  // sdot v26.4s, v4.16b, v7.4b[1] *)
  LdrQ 3 rhs_ptr (Imm 16); (* 3131: ldr q3, [%[rhs_ptr], #16] *)
  Inst 0x4f87e89c; (* 3132: .inst 0x4f87e89c  // sdot v28.4s, v4.16b, v7.4b[2] *)
  Inst 0x4fa7e89e; (* 3133: .inst 0x4fa7e89e  // sdot v30.4s, v4.16b, v7.4b[3] *)
  Inst 0x4f86e0b1; (* 3134: .inst 0x4f86e0b1  // sdot v17.4s, v5.16b, v6.4b[0] *)
  Inst 0x4fa6e0b3; (* 3135: .inst 0x4fa6e0b3  // sdot v19.4s, v5.16b, v6.4b[1] *)
  Inst 0x4f86e8b5; (* 3136: .inst 0x4f86e8b5  // sdot v21.4s, v5.16b, v6.4b[2] *)
  Inst 0x4fa6e8b7; (* 3137: .inst 0x4fa6e8b7  // sdot v23.4s, v5.16b, v6.4b[3] *)
  Inst 0x4f87e0b9; (* 3138: .inst 0x4f87e0b9  // sdot v25.4s, v5.16b, v7.4b[0] *)
  Inst 0x4fa7e0bb; (* 3139: .inst 0x4fa7e0bb  // sdot v27.4s, v5.16b, v7.4b[1] *)
  Inst 0x4f87e8bd; (* 3140: .inst 0x4f87e8bd  // sdot v29.4s, v5.16b, v7.4b[2] *)
  Inst 0x4fa7e8bf; (* 3141: .inst 0x4fa7e8bf  // sdot v31.4s, v5.16b, v7.4b[3] *)
  LdrQ 5 lhs_ptr (Imm 48); (* 3142: ldr q5, [%[lhs_ptr], #48] *)
  Inst 0x4f86e090; (* 3143: .inst 0x4f86e090  // sdot v16.4s, v4.16b, v6.4b[0] *)
  Inst 0x4fa6e092; (* 3144: .inst 0x4fa6e092  // sdot v18.4s, v4.16b, v6.4b[1] *)
  LdrQ 7 rhs_ptr (Imm 48); (* 3145: ldr q7, [%[rhs_ptr], #48] *)
  Inst 0x4f86e894; (* 3146: .inst 0x4f86e894  // sdot v20.4s, v4.16b, v6.4b[2] *)
  Inst 0x4fa6e896; (* 3147: .inst 0x4fa6e896  // sdot v22.4s, v4.16b, v6.4b[3] *)
  LdrQ 4 lhs_ptr (Imm 32); (* 3148: ldr q4, [%[lhs_ptr], #32] *)
  Inst 0x4f8be118; (* 3150: .inst 0x4f8be118  // sdot v24.4s, v8.16b, v11.4b[0] *)
  Inst 0x4fabe11a; (* 3151: .inst 0x4fabe11a  // sdot v26.4s, v8.16b, v11.4b[1] *)
  LdrQ 6 rhs_ptr (Imm 32); (* 3152: ldr q6, [%[rhs_ptr], #32] *)
  Inst 0x4f8be91c; (* 3153: .inst 0x4f8be91c  // sdot v28.4s, v8.16b, v11.4b[2] *)
  Inst 0x4fabe91e; (* 3154: .inst 0x4fabe91e  // sdot v30.4s, v8.16b, v11.4b[3] *)
  Inst 0x4f8ae131; (* 3155: .inst 0x4f8ae131  // sdot v17.4s, v9.16b, v10.4b[0] *)
  Inst 0x4faae133; (* 3156: .inst 0x4faae133  // sdot v19.4s, v9.16b, v10.4b[1] *)
  Inst 0x4f8ae935; (* 3157: .inst 0x4f8ae935  // sdot v21.4s, v9.16b, v10.4b[2] *)
  Inst 0x4faae937; (* 3158: .inst 0x4faae937  // sdot v23.4s, v9.16b, v10.4b[3] *)
  Inst 0x4f8be139; (* 3159: .inst 0x4f8be139  // sdot v25.4s, v9.16b, v11.4b[0] *)
  Inst 0x4fabe13b; (* 3160: .inst 0x4fabe13b  // sdot v27.4s, v9.16b, v11.4b[1] *)
  Inst 0x4f8be93d; (* 3161: .inst 0x4f8be93d  // sdot v29.4s, v9.16b, v11.4b[2] *)
  Inst 0x4fabe93f; (* 3162: .inst 0x4fabe93f  // sdot v31.4s, v9.16b, v11.4b[3] *)
  LdrQ 9 lhs_ptr (Imm 80); (* 3163: ldr q9, [%[lhs_ptr], #80] *)
  Inst 0x4f8ae110; (* 3164: .inst 0x4f8ae110  // sdot v16.4s, v8.16b, v10.4b[0] *)
  Inst 0x4faae112; (* 3165: .inst 0x4faae112  // sdot v18.4s, v8.16b, v10.4b[1] *)
  LdrQ 11 rhs_ptr (Imm 80); (* 3166: ldr q11, [%[rhs_ptr], #80] *)
  Inst 0x4f8ae914; (* 3167: .inst 0x4f8ae914  // sdot v20.4s, v8.16b, v10.4b[2] *)
  Inst 0x4faae916; (* 3168: .inst 0x4faae916  // sdot v22.4s, v8.16b, v10.4b[3] *)
  LdrQ 8 lhs_ptr (Imm 64); (* 3169: ldr q8, [%[lhs_ptr], #64] *)
  Inst 0x4f8fe198; (* 3171: .inst 0x4f8fe198  // sdot v24.4s, v12.16b, v15.4b[0] *)
  Inst 0x4fafe19a; (* 3172: .inst 0x4fafe19a  // sdot v26.4s, v12.16b, v15.4b[1] *)
  LdrQ 10 rhs_ptr (Imm 64); (* 3173: ldr q10, [%[rhs_ptr], #64] *)
  Inst 0x4f8fe99c; (* 3174: .inst 0x4f8fe99c  // sdot v28.4s, v12.16b, v15.4b[2] *)
  Inst 0x4fafe99e; (* 3175: .inst 0x4fafe99e  // sdot v30.4s, v12.16b, v15.4b[3] *)
  Alu AAdd false X lhs_ptr lhs_ptr (Imm 128); (* 3176: add %[lhs_ptr], %[lhs_ptr], #128 *)
  Inst 0x4f8ee1b1; (* 3177: .inst 0x4f8ee1b1  // sdot v17.4s, v13.16b, v14.4b[0] *)
  Inst 0x4faee1b3; (* 3178: .inst 0x4faee1b3  // sdot v19.4s, v13.16b, v14.4b[1] *)
  Alu AAdd false X rhs_ptr rhs_ptr (Imm 128); (* 3179: add %[rhs_ptr], %[rhs_ptr], #128 *)
  Inst 0x4f8ee9b5; (* 3180: .inst 0x4f8ee9b5  // sdot v21.4s, v13.16b, v14.4b[2] *)
  Inst 0x4faee9b7; (* 3181: .inst 0x4faee9b7  // sdot v23.4s, v13.16b, v14.4b[3] *)
  Inst 0x4f8fe1b9; (* 3182: .inst 0x4f8fe1b9  // sdot v25.4s, v13.16b, v15.4b[0] *)
  Inst 0x4fafe1bb; (* 3183: .inst 0x4fafe1bb  // sdot v27.4s, v13.16b, v15.4b[1] *)
  Cmp W 1 (Reg 3); (* 3184: cmp w1, w3 *)
  Inst 0x4f8fe9bd; (* 3185: .inst 0x4f8fe9bd  // sdot v29.4s, v13.16b, v15.4b[2] *)
  Inst 0x4fafe9bf; (* 3186: .inst 0x4fafe9bf  // sdot v31.4s, v13.16b, v15.4b[3] *)
  LdrQ 13 lhs_ptr (Imm (-16)); (* 3187: ldr q13, [%[lhs_ptr], #-16] *)
  Inst 0x4f8ee190; (* 3188: .inst 0x4f8ee190  // sdot v16.4s, v12.16b, v14.4b[0] *)
  Inst 0x4faee192; (* 3189: .inst 0x4faee192  // sdot v18.4s, v12.16b, v14.4b[1] *)
  LdrQ 15 rhs_ptr (Imm (-16)); (* 3190: ldr q15, [%[rhs_ptr], #-16] *)
  Inst 0x4f8ee994; (* 3191: .inst 0x4f8ee994  // sdot v20.4s, v12.16b, v14.4b[2] *)
  Inst 0x4faee996; (* 3192: .inst 0x4faee996  // sdot v22.4s, v12.16b, v14.4b[3] *)
  LdrQ 12 lhs_ptr (Imm (-32)); (* 3193: ldr q12, [%[lhs_ptr], #-32] *)
  Inst 0x4f82e010; (* 3195: .inst 0x4f82e010  // sdot v16.4s, v0.16b, v2.4b[0] *)
  Inst 0x4fa2e012; (* 3196: .inst 0x4fa2e012  // sdot v18.4s, v0.16b, v2.4b[1] *)
  LdrQ 14 rhs_ptr (Imm (-32)); (* 3197: ldr q14, [%[rhs_ptr], #-32] *)
  Inst 0x4f82e814; (* 3198: .inst 0x4f82e814  // sdot v20.4s, v0.16b, v2.4b[2] *)
  Inst 0x4fa2e816; (* 3199: .inst 0x4fa2e816  // sdot v22.4s, v0.16b, v2.4b[3] *)
  B LT (Back 81); (* 3201: blt 81b *)
  Inst 0x4f87e098; (* 3203: .inst 0x4f87e098  // sdot v24.4s, v4.16b, v7.4b[0] *)
  Inst 0x4fa7e09a; (* 3204: .inst 0x4fa7e09a  // sdot v26.4s, v4.16b, v7.4b[1] *)
  Inst 0x4f87e89c; (* 3205: .inst 0x4f87e89c  // sdot v28.4s, v4.16b, v7.4b[2] *)
  Inst 0x4fa7e89e; (* 3206: .inst 0x4fa7e89e  // sdot v30.4s, v4.16b, v7.4b[3] *)
  Inst 0x4f86e0b1; (* 3207: .inst 0x4f86e0b1  // sdot v17.4s, v5.16b, v6.4b[0] *)
  Inst 0x4fa6e0b3; (* 3208: .inst 0x4fa6e0b3  // sdot v19.4s, v5.16b, v6.4b[1] *)
  Inst 0x4f86e8b5; (* 3209: .inst 0x4f86e8b5  // sdot v21.4s, v5.16b, v6.4b[2] *)
  Inst 0x4fa6e8b7; (* 3210: .inst 0x4fa6e8b7  // sdot v23.4s, v5.16b, v6.4b[3] *)
  Inst 0x4f87e0b9; (* 3211: .inst 0x4f87e0b9  // sdot v25.4s, v5.16b, v7.4b[0] *)
  Inst 0x4fa7e0bb; (* 3212: .inst 0x4fa7e0bb  // sdot v27.4s, v5.16b, v7.4b[1] *)
  Inst 0x4f87e8bd; (* 3213: .inst 0x4f87e8bd  // sdot v29.4s, v5.16b, v7.4b[2] *)
  Inst 0x4fa7e8bf; (* 3214: .inst 0x4fa7e8bf  // sdot v31.4s, v5.16b, v7.4b[3] *)
  Inst 0x4f86e090; (* 3215: .inst 0x4f86e090  // sdot v16.4s, v4.16b, v6.4b[0] *)
  Inst 0x4fa6e092; (* 3216: .inst 0x4fa6e092  // sdot v18.4s, v4.16b, v6.4b[1] *)
  Inst 0x4f86e894; (* 3217: .inst 0x4f86e894  // sdot v20.4s, v4.16b, v6.4b[2] *)
  Inst 0x4fa6e896; (* 3218: .inst 0x4fa6e896  // sdot v22.4s, v4.16b, v6.4b[3] *)
  Inst 0x4f8be118; (* 3220: .inst 0x4f8be118  // sdot v24.4s, v8.16b, v11.4b[0] *)
  Inst 0x4fabe11a; (* 3221: .inst 0x4fabe11a  // sdot v26.4s, v8.16b, v11.4b[1] *)
  Inst 0x4f8be91c; (* 3222: .inst 0x4f8be91c  // sdot v28.4s, v8.16b, v11.4b[2] *)
  Inst 0x4fabe91e; (* 3223: .inst 0x4fabe91e  // sdot v30.4s, v8.16b, v11.4b[3] *)
  Inst 0x4f8ae131; (* 3224: .inst 0x4f8ae131  // sdot v17.4s, v9.16b, v10.4b[0] *)
  Inst 0x4faae133; (* 3225: .inst 0x4faae133  // sdot v19.4s, v9.16b, v10.4b[1] *)
  Inst 0x4f8ae935; (* 3226: .inst 0x4f8ae935  // sdot v21.4s, v9.16b, v10.4b[2] *)
  Inst 0x4faae937; (* 3227: .inst 0x4faae937  // sdot v23.4s, v9.16b, v10.4b[3] *)
  Inst 0x4f8be139; (* 3228: .inst 0x4f8be139  // sdot v25.4s, v9.16b, v11.4b[0] *)
  Inst 0x4fabe13b; (* 3229: .inst 0x4fabe13b  // sdot v27.4s, v9.16b, v11.4b[1] *)
  Inst 0x4f8be93d; (* 3230: .inst 0x4f8be93d  // sdot v29.4s, v9.16b, v11.4b[2] *)
  Inst 0x4fabe93f; (* 3231: .inst 0x4fabe93f  // sdot v31.4s, v9.16b, v11.4b[3] *)
  Inst 0x4f8ae110; (* 3232: .inst 0x4f8ae110  // sdot v16.4s, v8.16b, v10.4b[0] *)
  Inst 0x4faae112; (* 3233: .inst 0x4faae112  // sdot v18.4s, v8.16b, v10.4b[1] *)
  Inst 0x4f8ae914; (* 3234: .inst 0x4f8ae914  // sdot v20.4s, v8.16b, v10.4b[2] *)
  Inst 0x4faae916; (* 3235: .inst 0x4faae916  // sdot v22.4s, v8.16b, v10.4b[3] *)
  Inst 0x4f8fe198; (* 3237: .inst 0x4f8fe198  // sdot v24.4s, v12.16b, v15.4b[0] *)
  Inst 0x4fafe19a; (* 3238: .inst 0x4fafe19a  // sdot v26.4s, v12.16b, v15.4b[1] *)
  Inst 0x4f8fe99c; (* 3239: .inst 0x4f8fe99c  // sdot v28.4s, v12.16b, v15.4b[2] *)
  Inst 0x4fafe99e; (* 3240: .inst 0x4fafe99e  // sdot v30.4s, v12.16b, v15.4b[3] *)
  Inst 0x4f8ee1b1; (* 3241: .inst 0x4f8ee1b1  // sdot v17.4s, v13.16b, v14.4b[0] *)
  Inst 0x4faee1b3; (* 3242: .inst 0x4faee1b3  // sdot v19.4s, v13.16b, v14.4b[1] *)
  Inst 0x4f8ee9b5; (* 3243: .inst 0x4f8ee9b5  // sdot v21.4s, v13.16b, v14.4b[2] *)
  Inst 0x4faee9b7; (* 3244: .inst 0x4faee9b7  // sdot v23.4s, v13.16b, v14.4b[3] *)
  Inst 0x4f8fe1b9; (* 3245: .inst 0x4f8fe1b9  // sdot v25.4s, v13.16b, v15.4b[0] *)
  Inst 0x4fafe1bb; (* 3246: .inst 0x4fafe1bb  // sdot v27.4s, v13.16b, v15.4b[1] *)
  Inst 0x4f8fe9bd; (* 3247: .inst 0x4f8fe9bd  // sdot v29.4s, v13.16b, v15.4b[2] *)
  Inst 0x4fafe9bf; (* 3248: .inst 0x4fafe9bf  // sdot v31.4s, v13.16b, v15.4b[3] *)
  Inst 0x4f8ee190; (* 3249: .inst 0x4f8ee190  // sdot v16.4s, v12.16b, v14.4b[0] *)
  Inst 0x4faee192; (* 3250: .inst 0x4faee192  // sdot v18.4s, v12.16b, v14.4b[1] *)
  Inst 0x4f8ee994; (* 3251: .inst 0x4f8ee994  // sdot v20.4s, v12.16b, v14.4b[2] *)
  Inst 0x4faee996; (* 3252: .inst 0x4faee996  // sdot v22.4s, v12.16b, v14.4b[3] *)
  Label 78; (* 3254: 78: *)
  Cmp W 1 (Reg 12); (* 3263: cmp w1, w12 *)
  B EQ (Fwd 79); (* 3264: beq 79f *)
  Label 2; (* 3266: 2: *)
  Inst 0x4f83e018; (* 3270: .inst 0x4f83e018  // sdot v24.4s, v0.16b, v3.4b[0] *)
  Inst 0x4fa3e01a; (* 3271: .inst 0x4fa3e01a  // sdot v26.4s, v0.16b, v3.4b[1] *)
  Alu AAdd false W 1 1 (Imm 4); (* 3273: add w1, w1, #4 *)
  Inst 0x4f83e81c; (* 3274: .inst 0x4f83e81c  // sdot v28.4s, v0.16b, v3.4b[2] *)
  Inst 0x4fa3e81e; (* 3275: .inst 0x4fa3e81e  // sdot v30.4s, v0.16b, v3.4b[3] *)
  Ld1 16 0 lhs_ptr (Imm 16); (* 3276: ld1 {v0.16b}, [%[lhs_ptr]], #16 *)
  Inst 0x4f82e031; (* 3277: .inst 0x4f82e031  // sdot v17.4s, v1.16b, v2.4b[0] *)
  Inst 0x4fa2e033; (* 3278: .inst 0x4fa2e033  // sdot v19.4s, v1.16b, v2.4b[1] *)
  Cmp W 1 (Reg 12); (* 3280: cmp w1, w12 *)
  Inst 0x4f82e835; (* 3281: .inst 0x4f82e835  // sdot v21.4s, v1.16b, v2.4b[2] *)
  Inst 0x4fa2e837; (* 3282: .inst 0x4fa2e837  // sdot v23.4s, v1.16b, v2.4b[3] *)
  Ld1 16 2 rhs_ptr (Imm 16); (* 3283: ld1 {v2.16b}, [%[rhs_ptr]], #16 *)
  Inst 0x4f83e039; (* 3284: .inst 0x4f83e039  // sdot v25.4s, v1.16b, v3.4b[0] *)
  Inst 0x4fa3e03b; (* 3285: .inst 0x4fa3e03b  // sdot v27.4s, v1.16b, v3.4b[1] *)
  Inst 0x4f83e83d; (* 3286: .inst 0x4f83e83d  // sdot v29.4s, v1.16b, v3.4b[2] *)
  Inst 0x4fa3e83f; (* 3287: .inst 0x4fa3e83f  // sdot v31.4s, v1.16b, v3.4b[3] *)
  Ld1 16 3 rhs_ptr (Imm 16); (* 3288: ld1 {v3.16b}, [%[rhs_ptr]], #16 *)
  Inst 0x4f82e010; (* 3289: .inst 0x4f82e010  // sdot v16.4s, v0.16b, v2.4b[0] *)
  Inst 0x4fa2e012; (* 3290: .inst 0x4fa2e012  // sdot v18.4s, v0.16b, v2.4b[1] *)
  Inst 0x4f82e814; (* 3291: .inst 0x4f82e814  // sdot v20.4s, v0.16b, v2.4b[2] *)
  Inst 0x4fa2e816; (* 3292: .inst 0x4fa2e816  // sdot v22.4s, v0.16b, v2.4b[3] *)
  Ld1 16 1 lhs_ptr (Imm 16); (* 3293: ld1 {v1.16b}, [%[lhs_ptr]], #16 *)
  B LT (Back 2); (* 3295: blt 2b *)
  Label 79; (* 3297: 79: *)
  Inst 0x4f83e018; (* 3302: .inst 0x4f83e018  // sdot v24.4s, v0.16b, v3.4b[0] *)
  Inst 0x4fa3e01a; (* 3303: .inst 0x4fa3e01a  // sdot v26.4s, v0.16b, v3.4b[1] *)
  Inst 0x4f83e81c; (* 3304: .inst 0x4f83e81c  // sdot v28.4s, v0.16b, v3.4b[2] *)
  Inst 0x4fa3e81e; (* 3305: .inst 0x4fa3e81e  // sdot v30.4s, v0.16b, v3.4b[3] *)
  Inst 0x4f82e031; (* 3306: .inst 0x4f82e031  // sdot v17.4s, v1.16b, v2.4b[0] *)
  Inst 0x4fa2e033; (* 3307: .inst 0x4fa2e033  // sdot v19.4s, v1.16b, v2.4b[1] *)
  Inst 0x4f82e835; (* 3308: .inst 0x4f82e835  // sdot v21.4s, v1.16b, v2.4b[2] *)
  Inst 0x4fa2e837; (* 3309: .inst 0x4fa2e837  // sdot v23.4s, v1.16b, v2.4b[3] *)
  Inst 0x4f83e039; (* 3310: .inst 0x4f83e039  // sdot v25.4s, v1.16b, v3.4b[0] *)
  Inst 0x4fa3e03b; (* 3311: .inst 0x4fa3e03b  // sdot v27.4s, v1.16b, v3.4b[1] *)
  Inst 0x4f83e83d; (* 3312: .inst 0x4f83e83d  // sdot v29.4s, v1.16b, v3.4b[2] *)
  Inst 0x4fa3e83f; (* 3313: .inst 0x4fa3e83f  // sdot v31.4s, v1.16b, v3.4b[3] *)
  Cmp W row (Reg 7); (* 3331: cmp %w[row], w7 *)
  B GE (Fwd 4); (* 3332: bge 4f *)
  Alu AAdd false X lhs_col_ptr lhs_col_ptr (Lsl 9 3); (* 3334: add %[lhs_col_ptr], %[lhs_col_ptr], x9, lsl #3 *)
  B Always (Fwd 5); (* 3335: b 5f *)
  Label 4; (* 3336: 4: *)
  Mov X lhs_col_ptr (Reg 5); (* 3337: mov %[lhs_col_ptr], x5 *)
  Cmp W col (Reg 8); (* 3345: cmp %w[col], w8 *)
  B GE (Fwd 5); (* 3346: bge 5f *)
  Alu AAdd false X rhs_col_ptr rhs_col_ptr (Lsl 10 3); (* 3348: add %[rhs_col_ptr], %[rhs_col_ptr], x10, lsl #3 *)
  Label 5; (* 3349: 5: *)
  Mov X lhs_ptr (Reg lhs_col_ptr); (* 3353: mov %[lhs_ptr], %[lhs_col_ptr] *)
  Mov X rhs_ptr (Reg rhs_col_ptr); (* 3354: mov %[rhs_ptr], %[rhs_col_ptr] *)
  Movi 8 255; (* 3357: mvni v8.4s, #0 *)
  Ldr 4 3 params (Imm 76); (* 3358: ldr w3, [%[params], #76] *)
  Ldr 1 6 params (Imm 128); (* 3359: ldrb w6, [%[params], #128] *)
  Dup 4 4 9 3; (* 3360: dup v9.4s, w3 *)
  Ldr 8 1 params (Imm 0); (* 3362: ldr x1, [%[params], #0] *)
  Tst W 6 (Imm 32); (* 3364: tst w6, #0x20 *)
  Csel W 3 row col EQ; (* 3365: csel w3, %w[row], %w[col], eq *)
  Alu AAdd false X 5 1 (Lsl 3 2); (* 3368: add x5, x1, x3, lsl #2 *)
  Tst W 6 (Imm 1); (* 3372: tst w6, #0x1 *)
  Csel X 1 1 5 EQ; (* 3373: csel x1, x1, x5, eq *)
  Ld1 16 14 1 (Imm 16); (* 3376: ld1 {v14.4s}, [x1], #16 *)
  Ld1 16 15 1 (Imm 0); (* 3377: ld1 {v15.4s}, [x1] *)
  Ld1 16 0 lhs_ptr (Imm 16); (* 3383: ld1 {v0.16b}, [%[lhs_ptr]], #16 *)
  Ld1 16 1 lhs_ptr (Imm 16); (* 3384: ld1 {v1.16b}, [%[lhs_ptr]], #16 *)
  Ld1 16 2 rhs_ptr (Imm 16); (* 3385: ld1 {v2.16b}, [%[rhs_ptr]], #16 *)
  Ld1 16 3 rhs_ptr (Imm 16); (* 3386: ld1 {v3.16b}, [%[rhs_ptr]], #16 *)
  V2 (VAdd 4) 14 14 9; (* 3390: add v14.4s, v14.4s, v9.4s *)
  V2 (VAdd 4) 15 15 9; (* 3391: add v15.4s, v15.4s, v9.4s *)
  Tst W 6 (Imm 32); (* 3396: tst w6, #0x20 *)
  B NE (Fwd 6); (* 3397: bne 6f *)
  V2 (VAdd 4) 16 16 14; (* 3399: add v16.4s, v16.4s, v14.4s *)
  V2 (VAdd 4) 17 17 15; (* 3400: add v17.4s, v17.4s, v15.4s *)
  V2 (VAdd 4) 18 18 14; (* 3401: add v18.4s, v18.4s, v14.4s *)
  V2 (VAdd 4) 19 19 15; (* 3402: add v19.4s, v19.4s, v15.4s *)
  V2 (VAdd 4) 20 20 14; (* 3403: add v20.4s, v20.4s, v14.4s *)
  V2 (VAdd 4) 21 21 15; (* 3404: add v21.4s, v21.4s, v15.4s *)
  V2 (VAdd 4) 22 22 14; (* 3405: add v22.4s, v22.4s, v14.4s *)
  V2 (VAdd 4) 23 23 15; (* 3406: add v23.4s, v23.4s, v15.4s *)
  V2 (VAdd 4) 24 24 14; (* 3407: add v24.4s, v24.4s, v14.4s *)
  V2 (VAdd 4) 25 25 15; (* 3408: add v25.4s, v25.4s, v15.4s *)
  V2 (VAdd 4) 26 26 14; (* 3409: add v26.4s, v26.4s, v14.4s *)
  V2 (VAdd 4) 27 27 15; (* 3410: add v27.4s, v27.4s, v15.4s *)
  V2 (VAdd 4) 28 28 14; (* 3411: add v28.4s, v28.4s, v14.4s *)
  V2 (VAdd 4) 29 29 15; (* 3412: add v29.4s, v29.4s, v15.4s *)
  V2 (VAdd 4) 30 30 14; (* 3413: add v30.4s, v30.4s, v14.4s *)
  V2 (VAdd 4) 31 31 15; (* 3414: add v31.4s, v31.4s, v15.4s *)
  B Always (Fwd 7); (* 3415: b 7f *)
  Label 6; (* 3417: 6: *)
  DupLane 4 4 10 14 0; (* 3419: dup v10.4s, v14.s[0] *)
  DupLane 4 4 11 14 1; (* 3420: dup v11.4s, v14.s[1] *)
  DupLane 4 4 12 14 2; (* 3421: dup v12.4s, v14.s[2] *)
  DupLane 4 4 13 14 3; (* 3422: dup v13.4s, v14.s[3] *)
  V2 (VAdd 4) 16 16 10; (* 3423: add v16.4s, v16.4s, v10.4s *)
  V2 (VAdd 4) 17 17 10; (* 3424: add v17.4s, v17.4s, v10.4s *)
  V2 (VAdd 4) 18 18 11; (* 3425: add v18.4s, v18.4s, v11.4s *)
  V2 (VAdd 4) 19 19 11; (* 3426: add v19.4s, v19.4s, v11.4s *)
  V2 (VAdd 4) 20 20 12; (* 3427: add v20.4s, v20.4s, v12.4s *)
  V2 (VAdd 4) 21 21 12; (* 3428: add v21.4s, v21.4s, v12.4s *)
  V2 (VAdd 4) 22 22 13; (* 3429: add v22.4s, v22.4s, v13.4s *)
  V2 (VAdd 4) 23 23 13; (* 3430: add v23.4s, v23.4s, v13.4s *)
  DupLane 4 4 10 15 0; (* 3431: dup v10.4s, v15.s[0] *)
  DupLane 4 4 11 15 1; (* 3432: dup v11.4s, v15.s[1] *)
  DupLane 4 4 12 15 2; (* 3433: dup v12.4s, v15.s[2] *)
  DupLane 4 4 13 15 3; (* 3434: dup v13.4s, v15.s[3] *)
  V2 (VAdd 4) 24 24 10; (* 3435: add v24.4s, v24.4s, v10.4s *)
  V2 (VAdd 4) 25 25 10; (* 3436: add v25.4s, v25.4s, v10.4s *)
  V2 (VAdd 4) 26 26 11; (* 3437: add v26.4s, v26.4s, v11.4s *)
  V2 (VAdd 4) 27 27 11; (* 3438: add v27.4s, v27.4s, v11.4s *)
  V2 (VAdd 4) 28 28 12; (* 3439: add v28.4s, v28.4s, v12.4s *)
  V2 (VAdd 4) 29 29 12; (* 3440: add v29.4s, v29.4s, v12.4s *)
  V2 (VAdd 4) 30 30 13; (* 3441: add v30.4s, v30.4s, v13.4s *)
  V2 (VAdd 4) 31 31 13; (* 3442: add v31.4s, v31.4s, v13.4s *)
  Label 7; (* 3443: 7: *)
  Tst W 6 (Imm 4); (* 3445: tst w6, #0x4 *)
  B EQ (Fwd 401); (* 3446: beq 401f *)
  Ldr 8 3 params (Imm 16); (* 3447: ldr x3, [%[params], #16] *)
  Alu AAdd false X 3 3 (Lsl col 2); (* 3448: add x3, x3, %x[col], lsl #2 *)
  Ld1 16 14 3 (Imm 16); (* 3449: ld1 {v14.4s}, [x3], #16 *)
  Ld1 16 15 3 (Imm 0); (* 3450: ld1 {v15.4s}, [x3] *)
  Ldr 4 5 params (Imm 64); (* 3451: ldr w5, [%[params], #64] *)
  Dup 4 4 10 5; (* 3452: dup v10.4s, w5 *)
  MlsLane 16 10 14 0; (* 3455: mls v16.4s, v10.4s, v14.s[0] *)
  MlsLane 17 10 14 0; (* 3456: mls v17.4s, v10.4s, v14.s[0] *)
  MlsLane 18 10 14 1; (* 3457: mls v18.4s, v10.4s, v14.s[1] *)
  MlsLane 19 10 14 1; (* 3458: mls v19.4s, v10.4s, v14.s[1] *)
  MlsLane 20 10 14 2; (* 3459: mls v20.4s, v10.4s, v14.s[2] *)
  MlsLane 21 10 14 2; (* 3460: mls v21.4s, v10.4s, v14.s[2] *)
  MlsLane 22 10 14 3; (* 3461: mls v22.4s, v10.4s, v14.s[3] *)
  MlsLane 23 10 14 3; (* 3462: mls v23.4s, v10.4s, v14.s[3] *)
  MlsLane 24 10 15 0; (* 3463: mls v24.4s, v10.4s, v15.s[0] *)
  MlsLane 25 10 15 0; (* 3464: mls v25.4s, v10.4s, v15.s[0] *)
  MlsLane 26 10 15 1; (* 3465: mls v26.4s, v10.4s, v15.s[1] *)
  MlsLane 27 10 15 1; (* 3466: mls v27.4s, v10.4s, v15.s[1] *)
  MlsLane 28 10 15 2; (* 3467: mls v28.4s, v10.4s, v15.s[2] *)
  MlsLane 29 10 15 2; (* 3468: mls v29.4s, v10.4s, v15.s[2] *)
  MlsLane 30 10 15 3; (* 3469: mls v30.4s, v10.4s, v15.s[3] *)
  MlsLane 31 10 15 3; (* 3470: mls v31.4s, v10.4s, v15.s[3] *)
  Label 401; (* 3471: 401: *)
  Tst W 6 (Imm 2); (* 3473: tst w6, #0x2 *)
  B EQ (Fwd 402); (* 3474: beq 402f *)
  Ldr 8 2 params (Imm 8); (* 3475: ldr x2, [%[params], #8] *)
  Alu AAdd false X 2 2 (Lsl row 2); (* 3476: add x2, x2, %x[row], lsl #2 *)
  Ldr 4 5 params (Imm 68); (* 3477: ldr w5, [%[params], #68] *)
  Ld1 16 11 2 (Imm 16); (* 3479: ld1 {v11.4s}, [x2], #16 *)
  Ld1 16 12 2 (Imm 0); (* 3480: ld1 {v12.4s}, [x2] *)
  Ins 4 13 1 5; (* 3481: ins v13.s[1], w5 *)
  MulLane 11 11 13 1; (* 3483: mul v11.4s, v11.4s, v13.s[1] *)
  MulLane 12 12 13 1; (* 3484: mul v12.4s, v12.4s, v13.s[1] *)
  V2 (VSub 4) 16 16 11; (* 3487: sub v16.4s, v16.4s, v11.4s *)
  V2 (VSub 4) 17 17 12; (* 3488: sub v17.4s, v17.4s, v12.4s *)
  V2 (VSub 4) 18 18 11; (* 3489: sub v18.4s, v18.4s, v11.4s *)
  V2 (VSub 4) 19 19 12; (* 3490: sub v19.4s, v19.4s, v12.4s *)
  V2 (VSub 4) 20 20 11; (* 3491: sub v20.4s, v20.4s, v11.4s *)
  V2 (VSub 4) 21 21 12; (* 3492: sub v21.4s, v21.4s, v12.4s *)
  V2 (VSub 4) 22 22 11; (* 3493: sub v22.4s, v22.4s, v11.4s *)
  V2 (VSub 4) 23 23 12; (* 3494: sub v23.4s, v23.4s, v12.4s *)
  V2 (VSub 4) 24 24 11; (* 3495: sub v24.4s, v24.4s, v11.4s *)
  V2 (VSub 4) 25 25 12; (* 3496: sub v25.4s, v25.4s, v12.4s *)
  V2 (VSub 4) 26 26 11; (* 3497: sub v26.4s, v26.4s, v11.4s *)
  V2 (VSub 4) 27 27 12; (* 3498: sub v27.4s, v27.4s, v12.4s *)
  V2 (VSub 4) 28 28 11; (* 3499: sub v28.4s, v28.4s, v11.4s *)
  V2 (VSub 4) 29 29 12; (* 3500: sub v29.4s, v29.4s, v12.4s *)
  V2 (VSub 4) 30 30 11; (* 3501: sub v30.4s, v30.4s, v11.4s *)
  V2 (VSub 4) 31 31 12; (* 3502: sub v31.4s, v31.4s, v12.4s *)
  Cmp W dst_type_id (Imm 4); (* 3504: cmp %w[dst_type_id], #4 *)
  B EQ (Fwd 94); (* 3505: beq 94f *)
  Label 402; (* 3507: 402: *)
  Ldr 8 1 params (Imm 40); (* 3517: ldr x1, [%[params], #40] *)
  Tst W 6 (Imm 32); (* 3519: tst w6, #0x20 *)
  Csel W 3 row col EQ; (* 3520: csel w3, %w[row], %w[col], eq *)
  Tst W 6 (Imm 8); (* 3522: tst w6, #0x8 *)
  Alu AAdd false X 5 1 (Lsl 3 2); (* 3523: add x5, x1, x3, lsl #2 *)
  Csel X 1 1 5 EQ; (* 3524: csel x1, x1, x5, eq *)
  LdrQ 9 1 (Imm 0); (* 3526: ldr q9, [x1] *)
  LdrQ 10 1 (Imm 16); (* 3527: ldr q10, [x1, #16] *)
  V2 (Smin 4) 11 8 9; (* 3529: smin v11.4s, v8.4s, v9.4s *)
  V2 (Smin 4) 12 8 10; (* 3530: smin v12.4s, v8.4s, v10.4s *)
  V2 (VSub 4) 9 9 11; (* 3531: sub v9.4s, v9.4s, v11.4s *)
  V2 (VSub 4) 10 10 12; (* 3532: sub v10.4s, v10.4s, v12.4s *)
  Ldr 8 4 params (Imm 32); (* 3535: ldr x4, [%[params], #32] *)
  Alu AAdd false X 5 4 (Lsl 3 2); (* 3536: add x5, x4, x3, lsl #2 *)
  Csel X 4 4 5 EQ; (* 3537: csel x4, x4, x5, eq *)
  LdrQ 14 4 (Imm 0); (* 3539: ldr q14, [x4] *)
  LdrQ 15 4 (Imm 16); (* 3540: ldr q15, [x4, #16] *)
  Tst W 6 (Imm 32); (* 3543: tst w6, #0x20 *)
  B NE (Fwd 8); (* 3544: bne 8f *)
  V2 (Sshl 4) 16 16 9; (* 3548: sshl v16.4s, v16.4s, v9.4s *)
  V2 (Sshl 4) 17 17 10; (* 3549: sshl v17.4s, v17.4s, v10.4s *)
  V2 (Sshl 4) 18 18 9; (* 3550: sshl v18.4s, v18.4s, v9.4s *)
  V2 (Sshl 4) 19 19 10; (* 3551: sshl v19.4s, v19.4s, v10.4s *)
  V2 (Sshl 4) 20 20 9; (* 3552: sshl v20.4s, v20.4s, v9.4s *)
  V2 (Sshl 4) 21 21 10; (* 3553: sshl v21.4s, v21.4s, v10.4s *)
  V2 (Sshl 4) 22 22 9; (* 3554: sshl v22.4s, v22.4s, v9.4s *)
  V2 (Sshl 4) 23 23 10; (* 3555: sshl v23.4s, v23.4s, v10.4s *)
  V2 (Sshl 4) 24 24 9; (* 3556: sshl v24.4s, v24.4s, v9.4s *)
  V2 (Sshl 4) 25 25 10; (* 3557: sshl v25.4s, v25.4s, v10.4s *)
  V2 (Sshl 4) 26 26 9; (* 3558: sshl v26.4s, v26.4s, v9.4s *)
  V2 (Sshl 4) 27 27 10; (* 3559: sshl v27.4s, v27.4s, v10.4s *)
  V2 (Sshl 4) 28 28 9; (* 3560: sshl v28.4s, v28.4s, v9.4s *)
  V2 (Sshl 4) 29 29 10; (* 3561: sshl v29.4s, v29.4s, v10.4s *)
  V2 (Sshl 4) 30 30 9; (* 3562: sshl v30.4s, v30.4s, v9.4s *)
  V2 (Sshl 4) 31 31 10; (* 3563: sshl v31.4s, v31.4s, v10.4s *)
  Label 10; (* 3564: 10: *)
  V2 (Sqdmulh 4) 16 16 14; (* 3567: sqdmulh v16.4s, v16.4s, v14.4s *)
  V2 (Sqdmulh 4) 17 17 15; (* 3568: sqdmulh v17.4s, v17.4s, v15.4s *)
  V2 (Sqdmulh 4) 18 18 14; (* 3569: sqdmulh v18.4s, v18.4s, v14.4s *)
  V2 (Sqdmulh 4) 19 19 15; (* 3570: sqdmulh v19.4s, v19.4s, v15.4s *)
  V2 (Sqdmulh 4) 20 20 14; (* 3571: sqdmulh v20.4s, v20.4s, v14.4s *)
  V2 (Sqdmulh 4) 21 21 15; (* 3572: sqdmulh v21.4s, v21.4s, v15.4s *)
  V2 (Sqdmulh 4) 22 22 14; (* 3573: sqdmulh v22.4s, v22.4s, v14.4s *)
  V2 (Sqdmulh 4) 23 23 15; (* 3574: sqdmulh v23.4s, v23.4s, v15.4s *)
  V2 (Sqdmulh 4) 24 24 14; (* 3575: sqdmulh v24.4s, v24.4s, v14.4s *)
  V2 (Sqdmulh 4) 25 25 15; (* 3576: sqdmulh v25.4s, v25.4s, v15.4s *)
  V2 (Sqdmulh 4) 26 26 14; (* 3577: sqdmulh v26.4s, v26.4s, v14.4s *)
  V2 (Sqdmulh 4) 27 27 15; (* 3578: sqdmulh v27.4s, v27.4s, v15.4s *)
  V2 (Sqdmulh 4) 28 28 14; (* 3579: sqdmulh v28.4s, v28.4s, v14.4s *)
  V2 (Sqdmulh 4) 29 29 15; (* 3580: sqdmulh v29.4s, v29.4s, v15.4s *)
  V2 (Sqdmulh 4) 30 30 14; (* 3581: sqdmulh v30.4s, v30.4s, v14.4s *)
  V2 (Sqdmulh 4) 31 31 15; (* 3582: sqdmulh v31.4s, v31.4s, v15.4s *)
  V2 (Srshl 4) 16 16 11; (* 3585: srshl v16.4s, v16.4s, v11.4s *)
  V2 (Srshl 4) 17 17 12; (* 3586: srshl v17.4s, v17.4s, v12.4s *)
  V2 (Srshl 4) 18 18 11; (* 3587: srshl v18.4s, v18.4s, v11.4s *)
  V2 (Srshl 4) 19 19 12; (* 3588: srshl v19.4s, v19.4s, v12.4s *)
  V2 (Srshl 4) 20 20 11; (* 3589: srshl v20.4s, v20.4s, v11.4s *)
  V2 (Srshl 4) 21 21 12; (* 3590: srshl v21.4s, v21.4s, v12.4s *)
  V2 (Srshl 4) 22 22 11; (* 3591: srshl v22.4s, v22.4s, v11.4s *)
  V2 (Srshl 4) 23 23 12; (* 3592: srshl v23.4s, v23.4s, v12.4s *)
  V2 (Srshl 4) 24 24 11; (* 3593: srshl v24.4s, v24.4s, v11.4s *)
  V2 (Srshl 4) 25 25 12; (* 3594: srshl v25.4s, v25.4s, v12.4s *)
  V2 (Srshl 4) 26 26 11; (* 3595: srshl v26.4s, v26.4s, v11.4s *)
  V2 (Srshl 4) 27 27 12; (* 3596: srshl v27.4s, v27.4s, v12.4s *)
  V2 (Srshl 4) 28 28 11; (* 3597: srshl v28.4s, v28.4s, v11.4s *)
  V2 (Srshl 4) 29 29 12; (* 3598: srshl v29.4s, v29.4s, v12.4s *)
  V2 (Srshl 4) 30 30 11; (* 3599: srshl v30.4s, v30.4s, v11.4s *)
  V2 (Srshl 4) 31 31 12; (* 3600: srshl v31.4s, v31.4s, v12.4s *)
  B Always (Fwd 9); (* 3601: b 9f *)
  Label 8; (* 3603: 8: *)
  DupLane 4 4 4 9 0; (* 3607: dup v4.4s, v9.s[0] *)
  DupLane 4 4 5 9 1; (* 3608: dup v5.4s, v9.s[1] *)
  DupLane 4 4 6 9 2; (* 3609: dup v6.4s, v9.s[2] *)
  DupLane 4 4 7 9 3; (* 3610: dup v7.4s, v9.s[3] *)
  V2 (Sshl 4) 16 16 4; (* 3611: sshl v16.4s, v16.4s, v4.4s *)
  V2 (Sshl 4) 17 17 4; (* 3612: sshl v17.4s, v17.4s, v4.4s *)
  V2 (Sshl 4) 18 18 5; (* 3613: sshl v18.4s, v18.4s, v5.4s *)
  V2 (Sshl 4) 19 19 5; (* 3614: sshl v19.4s, v19.4s, v5.4s *)
  V2 (Sshl 4) 20 20 6; (* 3615: sshl v20.4s, v20.4s, v6.4s *)
  V2 (Sshl 4) 21 21 6; (* 3616: sshl v21.4s, v21.4s, v6.4s *)
  V2 (Sshl 4) 22 22 7; (* 3617: sshl v22.4s, v22.4s, v7.4s *)
  V2 (Sshl 4) 23 23 7; (* 3618: sshl v23.4s, v23.4s, v7.4s *)
  DupLane 4 4 4 10 0; (* 3619: dup v4.4s, v10.s[0] *)
  DupLane 4 4 5 10 1; (* 3620: dup v5.4s, v10.s[1] *)
  DupLane 4 4 6 10 2; (* 3621: dup v6.4s, v10.s[2] *)
  DupLane 4 4 7 10 3; (* 3622: dup v7.4s, v10.s[3] *)
  V2 (Sshl 4) 24 24 4; (* 3623: sshl v24.4s, v24.4s, v4.4s *)
  V2 (Sshl 4) 25 25 4; (* 3624: sshl v25.4s, v25.4s, v4.4s *)
  V2 (Sshl 4) 26 26 5; (* 3625: sshl v26.4s, v26.4s, v5.4s *)
  V2 (Sshl 4) 27 27 5; (* 3626: sshl v27.4s, v27.4s, v5.4s *)
  V2 (Sshl 4) 28 28 6; (* 3627: sshl v28.4s, v28.4s, v6.4s *)
  V2 (Sshl 4) 29 29 6; (* 3628: sshl v29.4s, v29.4s, v6.4s *)
  V2 (Sshl 4) 30 30 7; (* 3629: sshl v30.4s, v30.4s, v7.4s *)
  V2 (Sshl 4) 31 31 7; (* 3630: sshl v31.4s, v31.4s, v7.4s *)
  Label 11; (* 3631: 11: *)
  SqdmulhLane 16 16 14 0; (* 3634: sqdmulh v16.4s, v16.4s, v14.s[0] *)
  SqdmulhLane 17 17 14 0; (* 3635: sqdmulh v17.4s, v17.4s, v14.s[0] *)
  SqdmulhLane 18 18 14 1; (* 3636: sqdmulh v18.4s, v18.4s, v14.s[1] *)
  SqdmulhLane 19 19 14 1; (* 3637: sqdmulh v19.4s, v19.4s, v14.s[1] *)
  SqdmulhLane 20 20 14 2; (* 3638: sqdmulh v20.4s, v20.4s, v14.s[2] *)
  SqdmulhLane 21 21 14 2; (* 3639: sqdmulh v21.4s, v21.4s, v14.s[2] *)
  SqdmulhLane 22 22 14 3; (* 3640: sqdmulh v22.4s, v22.4s, v14.s[3] *)
  SqdmulhLane 23 23 14 3; (* 3641: sqdmulh v23.4s, v23.4s, v14.s[3] *)
  SqdmulhLane 24 24 15 0; (* 3642: sqdmulh v24.4s, v24.4s, v15.s[0] *)
  SqdmulhLane 25 25 15 0; (* 3643: sqdmulh v25.4s, v25.4s, v15.s[0] *)
  SqdmulhLane 26 26 15 1; (* 3644: sqdmulh v26.4s, v26.4s, v15.s[1] *)
  SqdmulhLane 27 27 15 1; (* 3645: sqdmulh v27.4s, v27.4s, v15.s[1] *)
  SqdmulhLane 28 28 15 2; (* 3646: sqdmulh v28.4s, v28.4s, v15.s[2] *)
  SqdmulhLane 29 29 15 2; (* 3647: sqdmulh v29.4s, v29.4s, v15.s[2] *)
  SqdmulhLane 30 30 15 3; (* 3648: sqdmulh v30.4s, v30.4s, v15.s[3] *)
  SqdmulhLane 31 31 15 3; (* 3649: sqdmulh v31.4s, v31.4s, v15.s[3] *)
  DupLane 4 4 4 11 0; (* 3652: dup v4.4s, v11.s[0] *)
  DupLane 4 4 5 11 1; (* 3653: dup v5.4s, v11.s[1] *)
  DupLane 4 4 6 11 2; (* 3654: dup v6.4s, v11.s[2] *)
  DupLane 4 4 7 11 3; (* 3655: dup v7.4s, v11.s[3] *)
  V2 (Srshl 4) 16 16 4; (* 3656: srshl v16.4s, v16.4s, v4.4s *)
  V2 (Srshl 4) 17 17 4; (* 3657: srshl v17.4s, v17.4s, v4.4s *)
  V2 (Srshl 4) 18 18 5; (* 3658: srshl v18.4s, v18.4s, v5.4s *)
  V2 (Srshl 4) 19 19 5; (* 3659: srshl v19.4s, v19.4s, v5.4s *)
  V2 (Srshl 4) 20 20 6; (* 3660: srshl v20.4s, v20.4s, v6.4s *)
  V2 (Srshl 4) 21 21 6; (* 3661: srshl v21.4s, v21.4s, v6.4s *)
  V2 (Srshl 4) 22 22 7; (* 3662: srshl v22.4s, v22.4s, v7.4s *)
  V2 (Srshl 4) 23 23 7; (* 3663: srshl v23.4s, v23.4s, v7.4s *)
  DupLane 4 4 4 12 0; (* 3664: dup v4.4s, v12.s[0] *)
  DupLane 4 4 5 12 1; (* 3665: dup v5.4s, v12.s[1] *)
  DupLane 4 4 6 12 2; (* 3666: dup v6.4s, v12.s[2] *)
  DupLane 4 4 7 12 3; (* 3667: dup v7.4s, v12.s[3] *)
  V2 (Srshl 4) 24 24 4; (* 3668: srshl v24.4s, v24.4s, v4.4s *)
  V2 (Srshl 4) 25 25 4; (* 3669: srshl v25.4s, v25.4s, v4.4s *)
  V2 (Srshl 4) 26 26 5; (* 3670: srshl v26.4s, v26.4s, v5.4s *)
  V2 (Srshl 4) 27 27 5; (* 3671: srshl v27.4s, v27.4s, v5.4s *)
  V2 (Srshl 4) 28 28 6; (* 3672: srshl v28.4s, v28.4s, v6.4s *)
  V2 (Srshl 4) 29 29 6; (* 3673: srshl v29.4s, v29.4s, v6.4s *)
  V2 (Srshl 4) 30 30 7; (* 3674: srshl v30.4s, v30.4s, v7.4s *)
  V2 (Srshl 4) 31 31 7; (* 3675: srshl v31.4s, v31.4s, v7.4s *)
  Label 9; (* 3676: 9: *)
  Ldr 4 4 params (Imm 72); (* 3678: ldr w4, [%[params], #72] *)
  Ins 2 13 4 4; (* 3679: ins v13.h[4], w4 *)
  Cmp W dst_type_id (Imm 3); (* 3681: cmp %w[dst_type_id], #3 *)
  B EQ (Fwd 93); (* 3682: beq 93f *)
  Cmp W dst_type_id (Imm 2); (* 3683: cmp %w[dst_type_id], #2 *)
  B EQ (Fwd 92); (* 3684: beq 92f *)
  Label 91; (* 3686: 91: *)
  Narrow false false 2 16 16; (* 3689: sqxtn v16.4h, v16.4s *)
  Narrow false true 2 16 17; (* 3690: sqxtn2 v16.8h, v17.4s *)
  Narrow false false 2 17 18; (* 3691: sqxtn v17.4h, v18.4s *)
  Narrow false true 2 17 19; (* 3692: sqxtn2 v17.8h, v19.4s *)
  Narrow false false 2 18 20; (* 3693: sqxtn v18.4h, v20.4s *)
  Narrow false true 2 18 21; (* 3694: sqxtn2 v18.8h, v21.4s *)
  Narrow false false 2 19 22; (* 3695: sqxtn v19.4h, v22.4s *)
  Narrow false true 2 19 23; (* 3696: sqxtn2 v19.8h, v23.4s *)
  Narrow false false 2 20 24; (* 3697: sqxtn v20.4h, v24.4s *)
  Narrow false true 2 20 25; (* 3698: sqxtn2 v20.8h, v25.4s *)
  Narrow false false 2 21 26; (* 3699: sqxtn v21.4h, v26.4s *)
  Narrow false true 2 21 27; (* 3700: sqxtn2 v21.8h, v27.4s *)
  Narrow false false 2 22 28; (* 3701: sqxtn v22.4h, v28.4s *)
  Narrow false true 2 22 29; (* 3702: sqxtn2 v22.8h, v29.4s *)
  Narrow false false 2 23 30; (* 3703: sqxtn v23.4h, v30.4s *)
  Narrow false true 2 23 31; (* 3704: sqxtn2 v23.8h, v31.4s *)
  Movi 24 0; (* 3709: movi v24.4s, #0 *)
  Movi 25 0; (* 3710: movi v25.4s, #0 *)
  Movi 26 0; (* 3711: movi v26.4s, #0 *)
  Movi 27 0; (* 3712: movi v27.4s, #0 *)
  Movi 28 0; (* 3713: movi v28.4s, #0 *)
  Movi 29 0; (* 3714: movi v29.4s, #0 *)
  Movi 30 0; (* 3715: movi v30.4s, #0 *)
  Movi 31 0; (* 3716: movi v31.4s, #0 *)
  DupLane 2 8 14 13 4; (* 3719: dup v14.8h, v13.h[4] *)
  V2 (Sqadd 2) 16 16 14; (* 3720: sqadd v16.8h, v16.8h, v14.8h *)
  V2 (Sqadd 2) 17 17 14; (* 3721: sqadd v17.8h, v17.8h, v14.8h *)
  V2 (Sqadd 2) 18 18 14; (* 3722: sqadd v18.8h, v18.8h, v14.8h *)
  V2 (Sqadd 2) 19 19 14; (* 3723: sqadd v19.8h, v19.8h, v14.8h *)
  V2 (Sqadd 2) 20 20 14; (* 3724: sqadd v20.8h, v20.8h, v14.8h *)
  V2 (Sqadd 2) 21 21 14; (* 3725: sqadd v21.8h, v21.8h, v14.8h *)
  V2 (Sqadd 2) 22 22 14; (* 3726: sqadd v22.8h, v22.8h, v14.8h *)
  V2 (Sqadd 2) 23 23 14; (* 3727: sqadd v23.8h, v23.8h, v14.8h *)
  Narrow true false 1 16 16; (* 3730: sqxtun v16.8b, v16.8h *)
  Narrow true true 1 16 17; (* 3731: sqxtun2 v16.16b, v17.8h *)
  Narrow true false 1 17 18; (* 3732: sqxtun v17.8b, v18.8h *)
  Narrow true true 1 17 19; (* 3733: sqxtun2 v17.16b, v19.8h *)
  Narrow true false 1 18 20; (* 3734: sqxtun v18.8b, v20.8h *)
  Narrow true true 1 18 21; (* 3735: sqxtun2 v18.16b, v21.8h *)
  Narrow true false 1 19 22; (* 3736: sqxtun v19.8b, v22.8h *)
  Narrow true true 1 19 23; (* 3737: sqxtun2 v19.16b, v23.8h *)
  Ldr 1 2 params (Imm 120); (* 3740: ldrb w2, [%[params], #120] *)
  Ldr 1 3 params (Imm 124); (* 3741: ldrb w3, [%[params], #124] *)
  Dup 1 16 14 2; (* 3742: dup v14.16b, w2 *)
  Dup 1 16 15 3; (* 3743: dup v15.16b, w3 *)
  V2 (Umax 1) 16 16 14; (* 3746: umax v16.16b, v16.16b, v14.16b *)
  V2 (Umax 1) 17 17 14; (* 3747: umax v17.16b, v17.16b, v14.16b *)
  V2 (Umax 1) 18 18 14; (* 3748: umax v18.16b, v18.16b, v14.16b *)
  V2 (Umax 1) 19 19 14; (* 3749: umax v19.16b, v19.16b, v14.16b *)
  V2 (Umin 1) 16 16 15; (* 3752: umin v16.16b, v16.16b, v15.16b *)
  V2 (Umin 1) 17 17 15; (* 3753: umin v17.16b, v17.16b, v15.16b *)
  V2 (Umin 1) 18 18 15; (* 3754: umin v18.16b, v18.16b, v15.16b *)
  V2 (Umin 1) 19 19 15; (* 3755: umin v19.16b, v19.16b, v15.16b *)
  DupLane 8 1 20 16 1; (* 3760: dup d20, v16.d[1] *)
  DupLane 8 1 21 17 1; (* 3761: dup d21, v17.d[1] *)
  DupLane 8 1 22 18 1; (* 3762: dup d22, v18.d[1] *)
  DupLane 8 1 23 19 1; (* 3763: dup d23, v19.d[1] *)
  Alu ASub false W 1 dst_rows (Reg row); (* 3770: sub w1, %w[dst_rows], %w[row] *)
  Alu ASub false W 2 dst_cols (Reg col); (* 3771: sub w2, %w[dst_cols], %w[col] *)
  Mov W 3 (Imm 8); (* 3772: mov w3, #8 *)
  Cmp W 1 (Imm 8); (* 3773: cmp w1, #8 *)
  Csel W 1 1 3 LE; (* 3775: csel w1, w1, w3, le *)
  Cmp W 2 (Imm 8); (* 3776: cmp w2, #8 *)
  Csel W 2 2 3 LE; (* 3778: csel w2, w2, w3, le *)
  Cmp W 1 (Reg 3); (* 3781: cmp w1, w3 *)
  Ccmp W 2 (Reg 3) EQ; (* 3782: ccmp w2, w3, 0, eq *)
  B EQ (Fwd 30); (* 3784: beq 30f *)
  Mov X 3 (Reg dst_tmp_buf); (* 3787: mov x3, %[dst_tmp_buf] *)
  Mov X 4 (Imm 8); (* 3788: mov x4, #8 *)
  B Always (Fwd 31); (* 3789: b 31f *)
  Label 30; (* 3790: 30: *)
  Mov X 3 (Reg dst_ptr); (* 3793: mov x3, %[dst_ptr] *)
  Mov X 4 (Reg 11); (* 3794: mov x4, x11 *)
  Label 31; (* 3795: 31: *)
  Nop; (* 3799: prfm pstl1strm, [x3] *)
  St1 8 16 3 (Reg 4); (* 3800: st1 {v16.8b}, [x3], x4 *)
  Movi 16 0; (* 3801: movi v16.4s, #0 *)
  Nop; (* 3802: prfm pstl1strm, [x3] *)
  St1 8 20 3 (Reg 4); (* 3803: st1 {v20.8b}, [x3], x4 *)
  Movi 20 0; (* 3804: movi v20.4s, #0 *)
  Nop; (* 3805: prfm pstl1strm, [x3] *)
  St1 8 17 3 (Reg 4); (* 3806: st1 {v17.8b}, [x3], x4 *)
  Movi 17 0; (* 3807: movi v17.4s, #0 *)
  Nop; (* 3808: prfm pstl1strm, [x3] *)
  St1 8 21 3 (Reg 4); (* 3809: st1 {v21.8b}, [x3], x4 *)
  Movi 21 0; (* 3810: movi v21.4s, #0 *)
  Nop; (* 3811: prfm pstl1strm, [x3] *)
  St1 8 18 3 (Reg 4); (* 3812: st1 {v18.8b}, [x3], x4 *)
  Movi 18 0; (* 3813: movi v18.4s, #0 *)
  Nop; (* 3814: prfm pstl1strm, [x3] *)
  St1 8 22 3 (Reg 4); (* 3815: st1 {v22.8b}, [x3], x4 *)
  Movi 22 0; (* 3816: movi v22.4s, #0 *)
  Nop; (* 3817: prfm pstl1strm, [x3] *)
  St1 8 19 3 (Reg 4); (* 3818: st1 {v19.8b}, [x3], x4 *)
  Movi 19 0; (* 3819: movi v19.4s, #0 *)
  Nop; (* 3820: prfm pstl1strm, [x3] *)
  St1 8 23 3 (Reg 4); (* 3821: st1 {v23.8b}, [x3], x4 *)
  Movi 23 0; (* 3822: movi v23.4s, #0 *)
  Inst 0x4f82e010; (* 3826: .inst 0x4f82e010  // sdot v16.4s, v0.16b, v2.4b[0] *)
  Inst 0x4fa2e012; (* 3827: .inst 0x4fa2e012  // sdot v18.4s, v0.16b, v2.4b[1] *)
  Inst 0x4f82e814; (* 3828: .inst 0x4f82e814  // sdot v20.4s, v0.16b, v2.4b[2] *)
  Inst 0x4fa2e816; (* 3829: .inst 0x4fa2e816  // sdot v22.4s, v0.16b, v2.4b[3] *)
  B EQ (Fwd 41); (* 3833: beq 41f *)
  Mov X 3 (Reg dst_tmp_buf); (* 3837: mov x3, %[dst_tmp_buf] *)
  Mov X 4 (Reg dst_ptr); (* 3838: mov x4, %[dst_ptr] *)
  Mov W 6 (Imm 0); (* 3839: mov w6, #0 *)
  Label 50; (* 3840: 50: *)
  Nop; (* 3841: prfm pstl1strm, [x4] *)
  Mov W 5 (Imm 0); (* 3842: mov w5, #0 *)
  Label 51; (* 3843: 51: *)
  Ldr 1 7 3 (Uxtw 5); (* 3844: ldrb w7, [x3, w5, uxtw] *)
  Str 1 7 4 (Uxtw 5); (* 3845: strb w7, [x4, w5, uxtw] *)
  Alu AAdd false W 5 5 (Imm 1); (* 3846: add w5, w5, #1 *)
  Cmp W 5 (Reg 1); (* 3847: cmp w5, w1 *)
  B LT (Back 51); (* 3848: blt 51b *)
  Alu AAdd false W 6 6 (Imm 1); (* 3849: add w6, w6, #1 *)
  Alu AAdd false X 3 3 (Imm 8); (* 3850: add x3, x3, #8 *)
  Alu AAdd false X 4 4 (Reg 11); (* 3851: add x4, x4, x11 *)
  Cmp W 6 (Reg 2); (* 3852: cmp w6, w2 *)
  B LT (Back 50); (* 3853: blt 50b *)
  Label 41; (* 3854: 41: *)
  Alu AAdd false X dst_ptr dst_ptr (Imm 8); (* 3855: add %[dst_ptr], %[dst_ptr], #8 *)
  B Always (Fwd 99); (* 3859: b 99f *)
  Label 92; (* 3861: 92: *)
  Narrow false false 2 16 16; (* 3864: sqxtn v16.4h, v16.4s *)
  Narrow false true 2 16 17; (* 3865: sqxtn2 v16.8h, v17.4s *)
  Narrow false false 2 17 18; (* 3866: sqxtn v17.4h, v18.4s *)
  Narrow false true 2 17 19; (* 3867: sqxtn2 v17.8h, v19.4s *)
  Narrow false false 2 18 20; (* 3868: sqxtn v18.4h, v20.4s *)
  Narrow false true 2 18 21; (* 3869: sqxtn2 v18.8h, v21.4s *)
  Narrow false false 2 19 22; (* 3870: sqxtn v19.4h, v22.4s *)
  Narrow false true 2 19 23; (* 3871: sqxtn2 v19.8h, v23.4s *)
  Narrow false false 2 20 24; (* 3872: sqxtn v20.4h, v24.4s *)
  Narrow false true 2 20 25; (* 3873: sqxtn2 v20.8h, v25.4s *)
  Narrow false false 2 21 26; (* 3874: sqxtn v21.4h, v26.4s *)
  Narrow false true 2 21 27; (* 3875: sqxtn2 v21.8h, v27.4s *)
  Narrow false false 2 22 28; (* 3876: sqxtn v22.4h, v28.4s *)
  Narrow false true 2 22 29; (* 3877: sqxtn2 v22.8h, v29.4s *)
  Narrow false false 2 23 30; (* 3878: sqxtn v23.4h, v30.4s *)
  Narrow false true 2 23 31; (* 3879: sqxtn2 v23.8h, v31.4s *)
  Movi 24 0; (* 3884: movi v24.4s, #0 *)
  Movi 25 0; (* 3885: movi v25.4s, #0 *)
  Movi 26 0; (* 3886: movi v26.4s, #0 *)
  Movi 27 0; (* 3887: movi v27.4s, #0 *)
  Movi 28 0; (* 3888: movi v28.4s, #0 *)
  Movi 29 0; (* 3889: movi v29.4s, #0 *)
  Movi 30 0; (* 3890: movi v30.4s, #0 *)
  Movi 31 0; (* 3891: movi v31.4s, #0 *)
  DupLane 2 8 14 13 4; (* 3894: dup v14.8h, v13.h[4] *)
  V2 (Sqadd 2) 16 16 14; (* 3895: sqadd v16.8h, v16.8h, v14.8h *)
  V2 (Sqadd 2) 17 17 14; (* 3896: sqadd v17.8h, v17.8h, v14.8h *)
  V2 (Sqadd 2) 18 18 14; (* 3897: sqadd v18.8h, v18.8h, v14.8h *)
  V2 (Sqadd 2) 19 19 14; (* 3898: sqadd v19.8h, v19.8h, v14.8h *)
  V2 (Sqadd 2) 20 20 14; (* 3899: sqadd v20.8h, v20.8h, v14.8h *)
  V2 (Sqadd 2) 21 21 14; (* 3900: sqadd v21.8h, v21.8h, v14.8h *)
  V2 (Sqadd 2) 22 22 14; (* 3901: sqadd v22.8h, v22.8h, v14.8h *)
  V2 (Sqadd 2) 23 23 14; (* 3902: sqadd v23.8h, v23.8h, v14.8h *)
  Narrow false false 1 16 16; (* 3905: sqxtn v16.8b, v16.8h *)
  Narrow false true 1 16 17; (* 3906: sqxtn2 v16.16b, v17.8h *)
  Narrow false false 1 17 18; (* 3907: sqxtn v17.8b, v18.8h *)
  Narrow false true 1 17 19; (* 3908: sqxtn2 v17.16b, v19.8h *)
  Narrow false false 1 18 20; (* 3909: sqxtn v18.8b, v20.8h *)
  Narrow false true 1 18 21; (* 3910: sqxtn2 v18.16b, v21.8h *)
  Narrow false false 1 19 22; (* 3911: sqxtn v19.8b, v22.8h *)
  Narrow false true 1 19 23; (* 3912: sqxtn2 v19.16b, v23.8h *)
  Ldr 1 2 params (Imm 120); (* 3915: ldrb w2, [%[params], #120] *)
  Ldr 1 3 params (Imm 124); (* 3916: ldrb w3, [%[params], #124] *)
  Dup 1 16 14 2; (* 3917: dup v14.16b, w2 *)
  Dup 1 16 15 3; (* 3918: dup v15.16b, w3 *)
  V2 (Smax 1) 16 16 14; (* 3921: smax v16.16b, v16.16b, v14.16b *)
  V2 (Smax 1) 17 17 14; (* 3922: smax v17.16b, v17.16b, v14.16b *)
  V2 (Smax 1) 18 18 14; (* 3923: smax v18.16b, v18.16b, v14.16b *)
  V2 (Smax 1) 19 19 14; (* 3924: smax v19.16b, v19.16b, v14.16b *)
  V2 (Smin 1) 16 16 15; (* 3927: smin v16.16b, v16.16b, v15.16b *)
  V2 (Smin 1) 17 17 15; (* 3928: smin v17.16b, v17.16b, v15.16b *)
  V2 (Smin 1) 18 18 15; (* 3929: smin v18.16b, v18.16b, v15.16b *)
  V2 (Smin 1) 19 19 15; (* 3930: smin v19.16b, v19.16b, v15.16b *)
  DupLane 8 1 20 16 1; (* 3935: dup d20, v16.d[1] *)
  DupLane 8 1 21 17 1; (* 3936: dup d21, v17.d[1] *)
  DupLane 8 1 22 18 1; (* 3937: dup d22, v18.d[1] *)
  DupLane 8 1 23 19 1; (* 3938: dup d23, v19.d[1] *)
  Alu ASub false W 1 dst_rows (Reg row); (* 3945: sub w1, %w[dst_rows], %w[row] *)
  Alu ASub false W 2 dst_cols (Reg col); (* 3946: sub w2, %w[dst_cols], %w[col] *)
  Mov W 3 (Imm 8); (* 3947: mov w3, #8 *)
  Cmp W 1 (Imm 8); (* 3948: cmp w1, #8 *)
  Csel W 1 1 3 LE; (* 3950: csel w1, w1, w3, le *)
  Cmp W 2 (Imm 8); (* 3951: cmp w2, #8 *)
  Csel W 2 2 3 LE; (* 3953: csel w2, w2, w3, le *)
  Cmp W 1 (Reg 3); (* 3956: cmp w1, w3 *)
  Ccmp W 2 (Reg 3) EQ; (* 3957: ccmp w2, w3, 0, eq *)
  B EQ (Fwd 130); (* 3959: beq 130f *)
  Mov X 3 (Reg dst_tmp_buf); (* 3962: mov x3, %[dst_tmp_buf] *)
  Mov X 4 (Imm 8); (* 3963: mov x4, #8 *)
  B Always (Fwd 131); (* 3964: b 131f *)
  Label 130; (* 3965: 130: *)
  Mov X 3 (Reg dst_ptr); (* 3968: mov x3, %[dst_ptr] *)
  Mov X 4 (Reg 11); (* 3969: mov x4, x11 *)
  Label 131; (* 3970: 131: *)
  Nop; (* 3974: prfm pstl1strm, [x3] *)
  St1 8 16 3 (Reg 4); (* 3975: st1 {v16.8b}, [x3], x4 *)
  Movi 16 0; (* 3976: movi v16.4s, #0 *)
  Nop; (* 3977: prfm pstl1strm, [x3] *)
  St1 8 20 3 (Reg 4); (* 3978: st1 {v20.8b}, [x3], x4 *)
  Movi 20 0; (* 3979: movi v20.4s, #0 *)
  Nop; (* 3980: prfm pstl1strm, [x3] *)
  St1 8 17 3 (Reg 4); (* 3981: st1 {v17.8b}, [x3], x4 *)
  Movi 17 0; (* 3982: movi v17.4s, #0 *)
  Nop; (* 3983: prfm pstl1strm, [x3] *)
  St1 8 21 3 (Reg 4); (* 3984: st1 {v21.8b}, [x3], x4 *)
  Movi 21 0; (* 3985: movi v21.4s, #0 *)
  Nop; (* 3986: prfm pstl1strm, [x3] *)
  St1 8 18 3 (Reg 4); (* 3987: st1 {v18.8b}, [x3], x4 *)
  Movi 18 0; (* 3988: movi v18.4s, #0 *)
  Nop; (* 3989: prfm pstl1strm, [x3] *)
  St1 8 22 3 (Reg 4); (* 3990: st1 {v22.8b}, [x3], x4 *)
  Movi 22 0; (* 3991: movi v22.4s, #0 *)
  Nop; (* 3992: prfm pstl1strm, [x3] *)
  St1 8 19 3 (Reg 4); (* 3993: st1 {v19.8b}, [x3], x4 *)
  Movi 19 0; (* 3994: movi v19.4s, #0 *)
  Nop; (* 3995: prfm pstl1strm, [x3] *)
  St1 8 23 3 (Reg 4); (* 3996: st1 {v23.8b}, [x3], x4 *)
  Movi 23 0; (* 3997: movi v23.4s, #0 *)
  Inst 0x4f82e010; (* 4001: .inst 0x4f82e010  // sdot v16.4s, v0.16b, v2.4b[0] *)
  Inst 0x4fa2e012; (* 4002: .inst 0x4fa2e012  // sdot v18.4s, v0.16b, v2.4b[1] *)
  Inst 0x4f82e814; (* 4003: .inst 0x4f82e814  // sdot v20.4s, v0.16b, v2.4b[2] *)
  Inst 0x4fa2e816; (* 4004: .inst 0x4fa2e816  // sdot v22.4s, v0.16b, v2.4b[3] *)
  B EQ (Fwd 141); (* 4008: beq 141f *)
  Mov X 3 (Reg dst_tmp_buf); (* 4012: mov x3, %[dst_tmp_buf] *)
  Mov X 4 (Reg dst_ptr); (* 4013: mov x4, %[dst_ptr] *)
  Mov W 6 (Imm 0); (* 4014: mov w6, #0 *)
  Label 150; (* 4015: 150: *)
  Nop; (* 4016: prfm pstl1strm, [x4] *)
  Mov W 5 (Imm 0); (* 4017: mov w5, #0 *)
  Label 151; (* 4018: 151: *)
  Ldr 1 7 3 (Uxtw 5); (* 4019: ldrb w7, [x3, w5, uxtw] *)
  Str 1 7 4 (Uxtw 5); (* 4020: strb w7, [x4, w5, uxtw] *)
  Alu AAdd false W 5 5 (Imm 1); (* 4021: add w5, w5, #1 *)
  Cmp W 5 (Reg 1); (* 4022: cmp w5, w1 *)
  B LT (Back 151); (* 4023: blt 151b *)
  Alu AAdd false W 6 6 (Imm 1); (* 4024: add w6, w6, #1 *)
  Alu AAdd false X 3 3 (Imm 8); (* 4025: add x3, x3, #8 *)
  Alu AAdd false X 4 4 (Reg 11); (* 4026: add x4, x4, x11 *)
  Cmp W 6 (Reg 2); (* 4027: cmp w6, w2 *)
  B LT (Back 150); (* 4028: blt 150b *)
  Label 141; (* 4029: 141: *)
  Alu AAdd false X dst_ptr dst_ptr (Imm 8); (* 4030: add %[dst_ptr], %[dst_ptr], #8 *)
  B Always (Fwd 99); (* 4034: b 99f *)
  Label 93; (* 4036: 93: *)
  DupLane 2 8 14 13 4; (* 4039: dup v14.8h, v13.h[4] *)
  Saddw 16 16 14; (* 4040: saddw v16.4s, v16.4s, v14.4h *)
  Saddw 17 17 14; (* 4041: saddw v17.4s, v17.4s, v14.4h *)
  Saddw 18 18 14; (* 4042: saddw v18.4s, v18.4s, v14.4h *)
  Saddw 19 19 14; (* 4043: saddw v19.4s, v19.4s, v14.4h *)
  Saddw 20 20 14; (* 4044: saddw v20.4s, v20.4s, v14.4h *)
  Saddw 21 21 14; (* 4045: saddw v21.4s, v21.4s, v14.4h *)
  Saddw 22 22 14; (* 4046: saddw v22.4s, v22.4s, v14.4h *)
  Saddw 23 23 14; (* 4047: saddw v23.4s, v23.4s, v14.4h *)
  Saddw 24 24 14; (* 4048: saddw v24.4s, v24.4s, v14.4h *)
  Saddw 25 25 14; (* 4049: saddw v25.4s, v25.4s, v14.4h *)
  Saddw 26 26 14; (* 4050: saddw v26.4s, v26.4s, v14.4h *)
  Saddw 27 27 14; (* 4051: saddw v27.4s, v27.4s, v14.4h *)
  Saddw 28 28 14; (* 4052: saddw v28.4s, v28.4s, v14.4h *)
  Saddw 29 29 14; (* 4053: saddw v29.4s, v29.4s, v14.4h *)
  Saddw 30 30 14; (* 4054: saddw v30.4s, v30.4s, v14.4h *)
  Saddw 31 31 14; (* 4055: saddw v31.4s, v31.4s, v14.4h *)
  Narrow false false 2 16 16; (* 4058: sqxtn v16.4h, v16.4s *)
  Narrow false true 2 16 17; (* 4059: sqxtn2 v16.8h, v17.4s *)
  Narrow false false 2 17 18; (* 4060: sqxtn v17.4h, v18.4s *)
  Narrow false true 2 17 19; (* 4061: sqxtn2 v17.8h, v19.4s *)
  Narrow false false 2 18 20; (* 4062: sqxtn v18.4h, v20.4s *)
  Narrow false true 2 18 21; (* 4063: sqxtn2 v18.8h, v21.4s *)
  Narrow false false 2 19 22; (* 4064: sqxtn v19.4h, v22.4s *)
  Narrow false true 2 19 23; (* 4065: sqxtn2 v19.8h, v23.4s *)
  Narrow false false 2 20 24; (* 4066: sqxtn v20.4h, v24.4s *)
  Narrow false true 2 20 25; (* 4067: sqxtn2 v20.8h, v25.4s *)
  Narrow false false 2 21 26; (* 4068: sqxtn v21.4h, v26.4s *)
  Narrow false true 2 21 27; (* 4069: sqxtn2 v21.8h, v27.4s *)
  Narrow false false 2 22 28; (* 4070: sqxtn v22.4h, v28.4s *)
  Narrow false true 2 22 29; (* 4071: sqxtn2 v22.8h, v29.4s *)
  Narrow false false 2 23 30; (* 4072: sqxtn v23.4h, v30.4s *)
  Narrow false true 2 23 31; (* 4073: sqxtn2 v23.8h, v31.4s *)
  Movi 24 0; (* 4078: movi v24.4s, #0 *)
  Movi 25 0; (* 4079: movi v25.4s, #0 *)
  Movi 26 0; (* 4080: movi v26.4s, #0 *)
  Movi 27 0; (* 4081: movi v27.4s, #0 *)
  Movi 28 0; (* 4082: movi v28.4s, #0 *)
  Movi 29 0; (* 4083: movi v29.4s, #0 *)
  Movi 30 0; (* 4084: movi v30.4s, #0 *)
  Movi 31 0; (* 4085: movi v31.4s, #0 *)
  Ldrs 2 2 params (Imm 120); (* 4088: ldrsh w2, [%[params], #120] *)
  Ldrs 2 3 params (Imm 124); (* 4089: ldrsh w3, [%[params], #124] *)
  Dup 2 8 14 2; (* 4090: dup v14.8h, w2 *)
  Dup 2 8 15 3; (* 4091: dup v15.8h, w3 *)
  V2 (Smax 2) 16 16 14; (* 4094: smax v16.8h, v16.8h, v14.8h *)
  V2 (Smax 2) 17 17 14; (* 4095: smax v17.8h, v17.8h, v14.8h *)
  V2 (Smax 2) 18 18 14; (* 4096: smax v18.8h, v18.8h, v14.8h *)
  V2 (Smax 2) 19 19 14; (* 4097: smax v19.8h, v19.8h, v14.8h *)
  V2 (Smax 2) 20 20 14; (* 4098: smax v20.8h, v20.8h, v14.8h *)
  V2 (Smax 2) 21 21 14; (* 4099: smax v21.8h, v21.8h, v14.8h *)
  V2 (Smax 2) 22 22 14; (* 4100: smax v22.8h, v22.8h, v14.8h *)
  V2 (Smax 2) 23 23 14; (* 4101: smax v23.8h, v23.8h, v14.8h *)
  V2 (Smin 2) 16 16 15; (* 4103: smin v16.8h, v16.8h, v15.8h *)
  V2 (Smin 2) 17 17 15; (* 4104: smin v17.8h, v17.8h, v15.8h *)
  V2 (Smin 2) 18 18 15; (* 4105: smin v18.8h, v18.8h, v15.8h *)
  V2 (Smin 2) 19 19 15; (* 4106: smin v19.8h, v19.8h, v15.8h *)
  V2 (Smin 2) 20 20 15; (* 4107: smin v20.8h, v20.8h, v15.8h *)
  V2 (Smin 2) 21 21 15; (* 4108: smin v21.8h, v21.8h, v15.8h *)
  V2 (Smin 2) 22 22 15; (* 4109: smin v22.8h, v22.8h, v15.8h *)
  V2 (Smin 2) 23 23 15; (* 4110: smin v23.8h, v23.8h, v15.8h *)
  Alu ASub false W 1 dst_rows (Reg row); (* 4117: sub w1, %w[dst_rows], %w[row] *)
  Alu ASub false W 2 dst_cols (Reg col); (* 4118: sub w2, %w[dst_cols], %w[col] *)
  Mov W 3 (Imm 8); (* 4119: mov w3, #8 *)
  Cmp W 1 (Imm 8); (* 4120: cmp w1, #8 *)
  Csel W 1 1 3 LE; (* 4122: csel w1, w1, w3, le *)
  Cmp W 2 (Imm 8); (* 4123: cmp w2, #8 *)
  Csel W 2 2 3 LE; (* 4125: csel w2, w2, w3, le *)
  Cmp W 1 (Reg 3); (* 4128: cmp w1, w3 *)
  Ccmp W 2 (Reg 3) EQ; (* 4129: ccmp w2, w3, 0, eq *)
  B EQ (Fwd 230); (* 4131: beq 230f *)
  Mov X 3 (Reg dst_tmp_buf); (* 4134: mov x3, %[dst_tmp_buf] *)
  Mov X 4 (Imm 16); (* 4135: mov x4, #16 *)
  B Always (Fwd 231); (* 4136: b 231f *)
  Label 230; (* 4137: 230: *)
  Mov X 3 (Reg dst_ptr); (* 4140: mov x3, %[dst_ptr] *)
  Mov X 4 (Reg 11); (* 4141: mov x4, x11 *)
  Label 231; (* 4142: 231: *)
  Nop; (* 4146: prfm pstl1strm, [x3] *)
  St1 16 16 3 (Reg 4); (* 4147: st1 {v16.8h}, [x3], x4 *)
  Movi 16 0; (* 4148: movi v16.4s, #0 *)
  Nop; (* 4149: prfm pstl1strm, [x3] *)
  St1 16 17 3 (Reg 4); (* 4150: st1 {v17.8h}, [x3], x4 *)
  Movi 17 0; (* 4151: movi v17.4s, #0 *)
  Nop; (* 4152: prfm pstl1strm, [x3] *)
  St1 16 18 3 (Reg 4); (* 4153: st1 {v18.8h}, [x3], x4 *)
  Movi 18 0; (* 4154: movi v18.4s, #0 *)
  Nop; (* 4155: prfm pstl1strm, [x3] *)
  St1 16 19 3 (Reg 4); (* 4156: st1 {v19.8h}, [x3], x4 *)
  Movi 19 0; (* 4157: movi v19.4s, #0 *)
  Nop; (* 4158: prfm pstl1strm, [x3] *)
  St1 16 20 3 (Reg 4); (* 4159: st1 {v20.8h}, [x3], x4 *)
  Movi 20 0; (* 4160: movi v20.4s, #0 *)
  Nop; (* 4161: prfm pstl1strm, [x3] *)
  St1 16 21 3 (Reg 4); (* 4162: st1 {v21.8h}, [x3], x4 *)
  Movi 21 0; (* 4163: movi v21.4s, #0 *)
  Nop; (* 4164: prfm pstl1strm, [x3] *)
  St1 16 22 3 (Reg 4); (* 4165: st1 {v22.8h}, [x3], x4 *)
  Movi 22 0; (* 4166: movi v22.4s, #0 *)
  Nop; (* 4167: prfm pstl1strm, [x3] *)
  St1 16 23 3 (Reg 4); (* 4168: st1 {v23.8h}, [x3], x4 *)
  Movi 23 0; (* 4169: movi v23.4s, #0 *)
  Inst 0x4f82e010; (* 4173: .inst 0x4f82e010  // sdot v16.4s, v0.16b, v2.4b[0] *)
  Inst 0x4fa2e012; (* 4174: .inst 0x4fa2e012  // sdot v18.4s, v0.16b, v2.4b[1] *)
  Inst 0x4f82e814; (* 4175: .inst 0x4f82e814  // sdot v20.4s, v0.16b, v2.4b[2] *)
  Inst 0x4fa2e816; (* 4176: .inst 0x4fa2e816  // sdot v22.4s, v0.16b, v2.4b[3] *)
  B EQ (Fwd 241); (* 4180: beq 241f *)
  Mov X 3 (Reg dst_tmp_buf); (* 4184: mov x3, %[dst_tmp_buf] *)
  Mov X 4 (Reg dst_ptr); (* 4185: mov x4, %[dst_ptr] *)
  Mov W 6 (Imm 0); (* 4186: mov w6, #0 *)
  Label 250; (* 4187: 250: *)
  Nop; (* 4188: prfm pstl1strm, [x4] *)
  Mov W 5 (Imm 0); (* 4189: mov w5, #0 *)
  Label 251; (* 4190: 251: *)
  Ldrs 2 7 3 (Lsl 5 1); (* 4191: ldrsh w7, [x3, x5, lsl #1] *)
  Str 2 7 4 (Lsl 5 1); (* 4192: strh w7, [x4, x5, lsl #1] *)
  Alu AAdd false W 5 5 (Imm 1); (* 4193: add w5, w5, #1 *)
  Cmp W 5 (Reg 1); (* 4194: cmp w5, w1 *)
  B LT (Back 251); (* 4195: blt 251b *)
  Alu AAdd false W 6 6 (Imm 1); (* 4196: add w6, w6, #1 *)
  Alu AAdd false X 3 3 (Imm 16); (* 4197: add x3, x3, #16 *)
  Alu AAdd false X 4 4 (Reg 11); (* 4198: add x4, x4, x11 *)
  Cmp W 6 (Reg 2); (* 4199: cmp w6, w2 *)
  B LT (Back 250); (* 4200: blt 250b *)
  Label 241; (* 4201: 241: *)
  Alu AAdd false X dst_ptr dst_ptr (Imm 16); (* 4202: add %[dst_ptr], %[dst_ptr], #16 *)
  B Always (Fwd 99); (* 4206: b 99f *)
  Label 94; (* 4208: 94: *)
  Alu ASub false W 1 dst_rows (Reg row); (* 4218: sub w1, %w[dst_rows], %w[row] *)
  Alu ASub false W 2 dst_cols (Reg col); (* 4219: sub w2, %w[dst_cols], %w[col] *)
  Mov W 3 (Imm 8); (* 4220: mov w3, #8 *)
  Cmp W 1 (Imm 8); (* 4221: cmp w1, #8 *)
  Csel W 1 1 3 LE; (* 4223: csel w1, w1, w3, le *)
  Cmp W 2 (Imm 8); (* 4224: cmp w2, #8 *)
  Csel W 2 2 3 LE; (* 4226: csel w2, w2, w3, le *)
  Cmp W 1 (Reg 3); (* 4229: cmp w1, w3 *)
  Ccmp W 2 (Reg 3) EQ; (* 4230: ccmp w2, w3, 0, eq *)
  B EQ (Fwd 330); (* 4232: beq 330f *)
  Mov X 3 (Reg dst_tmp_buf); (* 4235: mov x3, %[dst_tmp_buf] *)
  St1 16 16 3 (Imm 16); (* 4236: st1 {v16.4s}, [x3], #16 *)
  Movi 16 0; (* 4237: movi v16.4s, #0 *)
  St1 16 17 3 (Imm 16); (* 4238: st1 {v17.4s}, [x3], #16 *)
  Movi 17 0; (* 4239: movi v17.4s, #0 *)
  St1 16 18 3 (Imm 16); (* 4240: st1 {v18.4s}, [x3], #16 *)
  Movi 18 0; (* 4241: movi v18.4s, #0 *)
  St1 16 19 3 (Imm 16); (* 4242: st1 {v19.4s}, [x3], #16 *)
  Movi 19 0; (* 4243: movi v19.4s, #0 *)
  St1 16 20 3 (Imm 16); (* 4244: st1 {v20.4s}, [x3], #16 *)
  Movi 20 0; (* 4245: movi v20.4s, #0 *)
  St1 16 21 3 (Imm 16); (* 4246: st1 {v21.4s}, [x3], #16 *)
  Movi 21 0; (* 4247: movi v21.4s, #0 *)
  St1 16 22 3 (Imm 16); (* 4248: st1 {v22.4s}, [x3], #16 *)
  Movi 22 0; (* 4249: movi v22.4s, #0 *)
  St1 16 23 3 (Imm 16); (* 4250: st1 {v23.4s}, [x3], #16 *)
  Movi 23 0; (* 4251: movi v23.4s, #0 *)
  St1 16 24 3 (Imm 16); (* 4252: st1 {v24.4s}, [x3], #16 *)
  Movi 24 0; (* 4253: movi v24.4s, #0 *)
  St1 16 25 3 (Imm 16); (* 4254: st1 {v25.4s}, [x3], #16 *)
  Movi 25 0; (* 4255: movi v25.4s, #0 *)
  St1 16 26 3 (Imm 16); (* 4256: st1 {v26.4s}, [x3], #16 *)
  Movi 26 0; (* 4257: movi v26.4s, #0 *)
  St1 16 27 3 (Imm 16); (* 4258: st1 {v27.4s}, [x3], #16 *)
  Movi 27 0; (* 4259: movi v27.4s, #0 *)
  St1 16 28 3 (Imm 16); (* 4260: st1 {v28.4s}, [x3], #16 *)
  Movi 28 0; (* 4261: movi v28.4s, #0 *)
  St1 16 29 3 (Imm 16); (* 4262: st1 {v29.4s}, [x3], #16 *)
  Movi 29 0; (* 4263: movi v29.4s, #0 *)
  St1 16 30 3 (Imm 16); (* 4264: st1 {v30.4s}, [x3], #16 *)
  Movi 30 0; (* 4265: movi v30.4s, #0 *)
  St1 16 31 3 (Imm 16); (* 4266: st1 {v31.4s}, [x3], #16 *)
  Movi 31 0; (* 4267: movi v31.4s, #0 *)
  B Always (Fwd 331); (* 4269: b 331f *)
  Label 330; (* 4271: 330: *)
  Mov X 4 (Reg dst_ptr); (* 4273: mov x4, %[dst_ptr] *)
  Nop; (* 4274: prfm pstl1strm, [x4] *)
  Mov X 3 (Reg 4); (* 4275: mov x3, x4 *)
  St1Two 16 3 (Imm 32); (* 4276: st1 {v16.4s, v17.4s}, [x3], #32 *)
  Movi 16 0; (* 4277: movi v16.4s, #0 *)
  Movi 17 0; (* 4278: movi v17.4s, #0 *)
  Alu AAdd false X 4 4 (Reg 11); (* 4279: add x4, x4, x11 *)
  Nop; (* 4280: prfm pstl1strm, [x4] *)
  Mov X 3 (Reg 4); (* 4281: mov x3, x4 *)
  St1Two 18 3 (Imm 32); (* 4282: st1 {v18.4s, v19.4s}, [x3], #32 *)
  Movi 18 0; (* 4283: movi v18.4s, #0 *)
  Movi 19 0; (* 4284: movi v19.4s, #0 *)
  Alu AAdd false X 4 4 (Reg 11); (* 4285: add x4, x4, x11 *)
  Nop; (* 4286: prfm pstl1strm, [x4] *)
  Mov X 3 (Reg 4); (* 4287: mov x3, x4 *)
  St1Two 20 3 (Imm 32); (* 4288: st1 {v20.4s, v21.4s}, [x3], #32 *)
  Movi 20 0; (* 4289: movi v20.4s, #0 *)
  Movi 21 0; (* 4290: movi v21.4s, #0 *)
  Alu AAdd false X 4 4 (Reg 11); (* 4291: add x4, x4, x11 *)
  Nop; (* 4292: prfm pstl1strm, [x4] *)
  Mov X 3 (Reg 4); (* 4293: mov x3, x4 *)
  St1Two 22 3 (Imm 32); (* 4294: st1 {v22.4s, v23.4s}, [x3], #32 *)
  Movi 22 0; (* 4295: movi v22.4s, #0 *)
  Movi 23 0; (* 4296: movi v23.4s, #0 *)
  Alu AAdd false X 4 4 (Reg 11); (* 4297: add x4, x4, x11 *)
  Nop; (* 4298: prfm pstl1strm, [x4] *)
  Mov X 3 (Reg 4); (* 4299: mov x3, x4 *)
  St1Two 24 3 (Imm 32); (* 4300: st1 {v24.4s, v25.4s}, [x3], #32 *)
  Movi 24 0; (* 4301: movi v24.4s, #0 *)
  Movi 25 0; (* 4302: movi v25.4s, #0 *)
  Alu AAdd false X 4 4 (Reg 11); (* 4303: add x4, x4, x11 *)
  Nop; (* 4304: prfm pstl1strm, [x4] *)
  Mov X 3 (Reg 4); (* 4305: mov x3, x4 *)
  St1Two 26 3 (Imm 32); (* 4306: st1 {v26.4s, v27.4s}, [x3], #32 *)
  Movi 26 0; (* 4307: movi v26.4s, #0 *)
  Movi 27 0; (* 4308: movi v27.4s, #0 *)
  Alu AAdd false X 4 4 (Reg 11); (* 4309: add x4, x4, x11 *)
  Nop; (* 4310: prfm pstl1strm, [x4] *)
  Mov X 3 (Reg 4); (* 4311: mov x3, x4 *)
  St1Two 28 3 (Imm 32); (* 4312: st1 {v28.4s, v29.4s}, [x3], #32 *)
  Movi 28 0; (* 4313: movi v28.4s, #0 *)
  Movi 29 0; (* 4314: movi v29.4s, #0 *)
  Alu AAdd false X 4 4 (Reg 11); (* 4315: add x4, x4, x11 *)
  Nop; (* 4316: prfm pstl1strm, [x4] *)
  Mov X 3 (Reg 4); (* 4317: mov x3, x4 *)
  St1Two 30 3 (Imm 32); (* 4318: st1 {v30.4s, v31.4s}, [x3], #32 *)
  Movi 30 0; (* 4319: movi v30.4s, #0 *)
  Movi 31 0; (* 4320: movi v31.4s, #0 *)
  Label 331; (* 4322: 331: *)
  Inst 0x4f82e010; (* 4326: .inst 0x4f82e010  // sdot v16.4s, v0.16b, v2.4b[0] *)
  Inst 0x4fa2e012; (* 4327: .inst 0x4fa2e012  // sdot v18.4s, v0.16b, v2.4b[1] *)
  Inst 0x4f82e814; (* 4328: .inst 0x4f82e814  // sdot v20.4s, v0.16b, v2.4b[2] *)
  Inst 0x4fa2e816; (* 4329: .inst 0x4fa2e816  // sdot v22.4s, v0.16b, v2.4b[3] *)
  B EQ (Fwd 341); (* 4333: beq 341f *)
  Mov X 3 (Reg dst_tmp_buf); (* 4338: mov x3, %[dst_tmp_buf] *)
  Mov X 4 (Reg dst_ptr); (* 4339: mov x4, %[dst_ptr] *)
  Mov W 6 (Imm 0); (* 4340: mov w6, #0 *)
  Label 350; (* 4341: 350: *)
  Nop; (* 4342: prfm pstl1strm, [x4] *)
  Mov W 5 (Imm 0); (* 4343: mov w5, #0 *)
  Label 351; (* 4344: 351: *)
  Ldr 4 7 3 (Lsl 5 2); (* 4345: ldr w7, [x3, x5, lsl #2] *)
  Str 4 7 4 (Lsl 5 2); (* 4346: str w7, [x4, x5, lsl #2] *)
  Alu AAdd false W 5 5 (Imm 1); (* 4347: add w5, w5, #1 *)
  Cmp W 5 (Reg 1); (* 4348: cmp w5, w1 *)
  B LT (Back 351); (* 4349: blt 351b *)
  Alu AAdd false W 6 6 (Imm 1); (* 4350: add w6, w6, #1 *)
  Alu AAdd false X 3 3 (Imm 32); (* 4351: add x3, x3, #32 *)
  Alu AAdd false X 4 4 (Reg 11); (* 4352: add x4, x4, x11 *)
  Cmp W 6 (Reg 2); (* 4353: cmp w6, w2 *)
  B LT (Back 350); (* 4354: blt 350b *)
  Label 341; (* 4355: 341: *)
  Alu AAdd false X dst_ptr dst_ptr (Imm 32); (* 4356: add %[dst_ptr], %[dst_ptr], #32 *)
  Label 99; (* 4360: 99: *)
  Ldr 8 5 params (Imm 24); (* 4364: ldr x5, [%[params], #24] *)
  Ldr 4 6 params (Imm 80); (* 4365: ldr w6, [%[params], #80] *)
  Ldr 4 7 params (Imm 88); (* 4366: ldr w7, [%[params], #88] *)
  Cmp W row (Reg 7); (* 4372: cmp %w[row], w7 *)
  B EQ (Fwd 20); (* 4373: beq 20f *)
  Alu AAdd false W row row (Imm 8); (* 4375: add %w[row], %w[row], #8 *)
  B Always (Fwd 21); (* 4376: b 21f *)
  Label 20; (* 4377: 20: *)
  Mov W row (Reg 6); (* 4379: mov %w[row], w6 *)
  Alu AAdd false W col col (Imm 8); (* 4380: add %w[col], %w[col], #8 *)
  Alu AAdd false X dst_col_ptr dst_col_ptr (Lsl 11 3); (* 4381: add %[dst_col_ptr], %[dst_col_ptr], x11, lsl #3 *)
  Mov X dst_ptr (Reg dst_col_ptr); (* 4382: mov %[dst_ptr], %[dst_col_ptr] *)
  Label 21; (* 4383: 21: *)
  Cmp W col (Reg 8); (* 4386: cmp %w[col], w8 *)
  Mov W 1 (Imm 4); (* 4391: mov w1, #4 *)
  B LE (Back 1) (* 4393: ble 1b *)
].

(** kernel_arm64.cc:4466-5648, Kernel8bitNeonDotprodX1. *)
Definition kernel8_dotprod_x1 : list instr := [
  Ldr 8 5 params (Imm 24); (* 4466: ldr x5, [%[params], #24] *)
  Ldr 4 6 params (Imm 80); (* 4467: ldr w6, [%[params], #80] *)
  Ldr 4 7 params (Imm 88); (* 4468: ldr w7, [%[params], #88] *)
  Ldr 4 8 params (Imm 92); (* 4469: ldr w8, [%[params], #92] *)
  Ldr 4 9 params (Imm 104); (* 4470: ldr w9, [%[params], #104] *)
  Ldr 4 10 params (Imm 108); (* 4471: ldr w10, [%[params], #108] *)
  Ldr 4 11 params (Imm 112); (* 4472: ldr w11, [%[params], #112] *)
  Ldr 4 12 params (Imm 116); (* 4473: ldr w12, [%[params], #116] *)
  Ld1 16 0 lhs_ptr (Imm 16); (* 4476: ld1 {v0.16b}, [%[lhs_ptr]], #16 *)
  Ld1 16 1 lhs_ptr (Imm 16); (* 4477: ld1 {v1.16b}, [%[lhs_ptr]], #16 *)
  Ld1 16 2 rhs_ptr (Imm 16); (* 4478: ld1 {v2.16b}, [%[rhs_ptr]], #16 *)
  Ld1 16 3 rhs_ptr (Imm 16); (* 4479: ld1 {v3.16b}, [%[rhs_ptr]], #16 *)
  Movi 16 0; (* 4482: movi v16.4s, #0 *)
  Movi 17 0; (* 4483: movi v17.4s, #0 *)
  Movi 18 0; (* 4484: movi v18.4s, #0 *)
  Movi 19 0; (* 4485: movi v19.4s, #0 *)
  Movi 20 0; (* 4486: movi v20.4s, #0 *)
  Movi 21 0; (* 4487: movi v21.4s, #0 *)
  Movi 22 0; (* 4488: movi v22.4s, #0 *)
  Movi 23 0; (* 4489: movi v23.4s, #0 *)
  Movi 24 0; (* 4490: movi v24.4s, #0 *)
  Movi 25 0; (* 4491: movi v25.4s, #0 *)
  Movi 26 0; (* 4492: movi v26.4s, #0 *)
  Movi 27 0; (* 4493: movi v27.4s, #0 *)
  Movi 28 0; (* 4494: movi v28.4s, #0 *)
  Movi 29 0; (* 4495: movi v29.4s, #0 *)
  Movi 30 0; (* 4496: movi v30.4s, #0 *)
  Movi 31 0; (* 4497: movi v31.4s, #0 *)
  Mov W 1 (Imm 4); (* 4502: mov w1, #4 *)
  Inst 0x4f82e010; (* 4506: .inst 0x4f82e010  // sdot v16.4s, v0.16b, v2.4b[0] *)
  Inst 0x4fa2e012; (* 4507: .inst 0x4fa2e012  // sdot v18.4s, v0.16b, v2.4b[1] *)
  Inst 0x4f82e814; (* 4508: .inst 0x4f82e814  // sdot v20.4s, v0.16b, v2.4b[2] *)
  Inst 0x4fa2e816; (* 4509: .inst 0x4fa2e816  // sdot v22.4s, v0.16b, v2.4b[3] *)
  Label 1; (* 4513: 1: *)
  Cmp W 1 (Reg 12); (* 4518: cmp w1, w12 *)
  B EQ (Fwd 79); (* 4519: beq 79f *)
  Label 2; (* 4521: 2: *)
  Inst 0x4f83e018; (* 4525: .inst 0x4f83e018  // sdot v24.4s, v0.16b, v3.4b[0] *)
  Inst 0x4fa3e01a; (* 4526: .inst 0x4fa3e01a  // sdot v26.4s, v0.16b, v3.4b[1] *)
  Alu AAdd false W 1 1 (Imm 4); (* 4528: add w1, w1, #4 *)
  Inst 0x4f83e81c; (* 4529: .inst 0x4f83e81c  // sdot v28.4s, v0.16b, v3.4b[2] *)
  Inst 0x4fa3e81e; (* 4530: .inst 0x4fa3e81e  // sdot v30.4s, v0.16b, v3.4b[3] *)
  Ld1 16 0 lhs_ptr (Imm 16); (* 4531: ld1 {v0.16b}, [%[lhs_ptr]], #16 *)
  Inst 0x4f82e031; (* 4532: .inst 0x4f82e031  // sdot v17.4s, v1.16b, v2.4b[0] *)
  Inst 0x4fa2e033; (* 4533: .inst 0x4fa2e033  // sdot v19.4s, v1.16b, v2.4b[1] *)
  Cmp W 1 (Reg 12); (* 4535: cmp w1, w12 *)
  Inst 0x4f82e835; (* 4536: .inst 0x4f82e835  // sdot v21.4s, v1.16b, v2.4b[2] *)
  Inst 0x4fa2e837; (* 4537: .inst 0x4fa2e837  // sdot v23.4s, v1.16b, v2.4b[3] *)
  Ld1 16 2 rhs_ptr (Imm 16); (* 4538: ld1 {v2.16b}, [%[rhs_ptr]], #16 *)
  Inst 0x4f83e039; (* 4539: .inst 0x4f83e039  // sdot v25.4s, v1.16b, v3.4b[0] *)
  Inst 0x4fa3e03b; (* 4540: .inst 0x4fa3e03b  // sdot v27.4s, v1.16b, v3.4b[1] *)
  Inst 0x4f83e83d; (* 4541: .inst 0x4f83e83d  // sdot v29.4s, v1.16b, v3.4b[2] *)
  Inst 0x4fa3e83f; (* 4542: .inst 0x4fa3e83f  // sdot v31.4s, v1.16b, v3.4b[3] *)
  Ld1 16 3 rhs_ptr (Imm 16); (* 4543: ld1 {v3.16b}, [%[rhs_ptr]], #16 *)
  Inst 0x4f82e010; (* 4544: .inst 0x4f82e010  // sdot v16.4s, v0.16b, v2.4b[0] *)
  Inst 0x4fa2e012; (* 4545: .inst 0x4fa2e012  // sdot v18.4s, v0.16b, v2.4b[1] *)
  Inst 0x4f82e814; (* 4546: .inst 0x4f82e814  // sdot v20.4s, v0.16b, v2.4b[2] *)
  Inst 0x4fa2e816; (* 4547: .inst 0x4fa2e816  // sdot v22.4s, v0.16b, v2.4b[3] *)
  Ld1 16 1 lhs_ptr (Imm 16); (* 4548: ld1 {v1.16b}, [%[lhs_ptr]], #16 *)
  B LT (Back 2); (* 4550: blt 2b *)
  Label 79; (* 4552: 79: *)
  Inst 0x4f83e018; (* 4557: .inst 0x4f83e018  // sdot v24.4s, v0.16b, v3.4b[0] *)
  Inst 0x4fa3e01a; (* 4558: .inst 0x4fa3e01a  // sdot v26.4s, v0.16b, v3.4b[1] *)
  Inst 0x4f83e81c; (* 4559: .inst 0x4f83e81c  // sdot v28.4s, v0.16b, v3.4b[2] *)
  Inst 0x4fa3e81e; (* 4560: .inst 0x4fa3e81e  // sdot v30.4s, v0.16b, v3.4b[3] *)
  Inst 0x4f82e031; (* 4561: .inst 0x4f82e031  // sdot v17.4s, v1.16b, v2.4b[0] *)
  Inst 0x4fa2e033; (* 4562: .inst 0x4fa2e033  // sdot v19.4s, v1.16b, v2.4b[1] *)
  Inst 0x4f82e835; (* 4563: .inst 0x4f82e835  // sdot v21.4s, v1.16b, v2.4b[2] *)
  Inst 0x4fa2e837; (* 4564: .inst 0x4fa2e837  // sdot v23.4s, v1.16b, v2.4b[3] *)
  Inst 0x4f83e039; (* 4565: .inst 0x4f83e039  // sdot v25.4s, v1.16b, v3.4b[0] *)
  Inst 0x4fa3e03b; (* 4566: .inst 0x4fa3e03b  // sdot v27.4s, v1.16b, v3.4b[1] *)
  Inst 0x4f83e83d; (* 4567: .inst 0x4f83e83d  // sdot v29.4s, v1.16b, v3.4b[2] *)
  Inst 0x4fa3e83f; (* 4568: .inst 0x4fa3e83f  // sdot v31.4s, v1.16b, v3.4b[3] *)
  Cmp W row (Reg 7); (* 4586: cmp %w[row], w7 *)
  B GE (Fwd 4); (* 4587: bge 4f *)
  Alu AAdd false X lhs_col_ptr lhs_col_ptr (Lsl 9 3); (* 4589: add %[lhs_col_ptr], %[lhs_col_ptr], x9, lsl #3 *)
  B Always (Fwd 5); (* 4590: b 5f *)
  Label 4; (* 4591: 4: *)
  Mov X lhs_col_ptr (Reg 5); (* 4592: mov %[lhs_col_ptr], x5 *)
  Cmp W col (Reg 8); (* 4600: cmp %w[col], w8 *)
  B GE (Fwd 5); (* 4601: bge 5f *)
  Alu AAdd false X rhs_col_ptr rhs_col_ptr (Lsl 10 3); (* 4603: add %[rhs_col_ptr], %[rhs_col_ptr], x10, lsl #3 *)
  Label 5; (* 4604: 5: *)
  Mov X lhs_ptr (Reg lhs_col_ptr); (* 4608: mov %[lhs_ptr], %[lhs_col_ptr] *)
  Mov X rhs_ptr (Reg rhs_col_ptr); (* 4609: mov %[rhs_ptr], %[rhs_col_ptr] *)
  Movi 8 255; (* 4612: mvni v8.4s, #0 *)
  Ldr 4 3 params (Imm 76); (* 4613: ldr w3, [%[params], #76] *)
  Ldr 1 6 params (Imm 128); (* 4614: ldrb w6, [%[params], #128] *)
  Dup 4 4 9 3; (* 4615: dup v9.4s, w3 *)
  Ldr 8 1 params (Imm 0); (* 4617: ldr x1, [%[params], #0] *)
  Tst W 6 (Imm 32); (* 4619: tst w6, #0x20 *)
  Csel W 3 row col EQ; (* 4620: csel w3, %w[row], %w[col], eq *)
  Alu AAdd false X 5 1 (Lsl 3 2); (* 4623: add x5, x1, x3, lsl #2 *)
  Tst W 6 (Imm 1); (* 4627: tst w6, #0x1 *)
  Csel X 1 1 5 EQ; (* 4628: csel x1, x1, x5, eq *)
  Ld1 16 14 1 (Imm 16); (* 4631: ld1 {v14.4s}, [x1], #16 *)
  Ld1 16 15 1 (Imm 0); (* 4632: ld1 {v15.4s}, [x1] *)
  Ld1 16 0 lhs_ptr (Imm 16); (* 4638: ld1 {v0.16b}, [%[lhs_ptr]], #16 *)
  Ld1 16 1 lhs_ptr (Imm 16); (* 4639: ld1 {v1.16b}, [%[lhs_ptr]], #16 *)
  Ld1 16 2 rhs_ptr (Imm 16); (* 4640: ld1 {v2.16b}, [%[rhs_ptr]], #16 *)
  Ld1 16 3 rhs_ptr (Imm 16); (* 4641: ld1 {v3.16b}, [%[rhs_ptr]], #16 *)
  V2 (VAdd 4) 14 14 9; (* 4645: add v14.4s, v14.4s, v9.4s *)
  V2 (VAdd 4) 15 15 9; (* 4646: add v15.4s, v15.4s, v9.4s *)
  Tst W 6 (Imm 32); (* 4651: tst w6, #0x20 *)
  B NE (Fwd 6); (* 4652: bne 6f *)
  V2 (VAdd 4) 16 16 14; (* 4654: add v16.4s, v16.4s, v14.4s *)
  V2 (VAdd 4) 17 17 15; (* 4655: add v17.4s, v17.4s, v15.4s *)
  V2 (VAdd 4) 18 18 14; (* 4656: add v18.4s, v18.4s, v14.4s *)
  V2 (VAdd 4) 19 19 15; (* 4657: add v19.4s, v19.4s, v15.4s *)
  V2 (VAdd 4) 20 20 14; (* 4658: add v20.4s, v20.4s, v14.4s *)
  V2 (VAdd 4) 21 21 15; (* 4659: add v21.4s, v21.4s, v15.4s *)
  V2 (VAdd 4) 22 22 14; (* 4660: add v22.4s, v22.4s, v14.4s *)
  V2 (VAdd 4) 23 23 15; (* 4661: add v23.4s, v23.4s, v15.4s *)
  V2 (VAdd 4) 24 24 14; (* 4662: add v24.4s, v24.4s, v14.4s *)
  V2 (VAdd 4) 25 25 15; (* 4663: add v25.4s, v25.4s, v15.4s *)
  V2 (VAdd 4) 26 26 14; (* 4664: add v26.4s, v26.4s, v14.4s *)
  V2 (VAdd 4) 27 27 15; (* 4665: add v27.4s, v27.4s, v15.4s *)
  V2 (VAdd 4) 28 28 14; (* 4666: add v28.4s, v28.4s, v14.4s *)
  V2 (VAdd 4) 29 29 15; (* 4667: add v29.4s, v29.4s, v15.4s *)
  V2 (VAdd 4) 30 30 14; (* 4668: add v30.4s, v30.4s, v14.4s *)
  V2 (VAdd 4) 31 31 15; (* 4669: add v31.4s, v31.4s, v15.4s *)
  B Always (Fwd 7); (* 4670: b 7f *)
  Label 6; (* 4672: 6: *)
  DupLane 4 4 10 14 0; (* 4674: dup v10.4s, v14.s[0] *)
  DupLane 4 4 11 14 1; (* 4675: dup v11.4s, v14.s[1] *)
  DupLane 4 4 12 14 2; (* 4676: dup v12.4s, v14.s[2] *)
  DupLane 4 4 13 14 3; (* 4677: dup v13.4s, v14.s[3] *)
  V2 (VAdd 4) 16 16 10; (* 4678: add v16.4s, v16.4s, v10.4s *)
  V2 (VAdd 4) 17 17 10; (* 4679: add v17.4s, v17.4s, v10.4s *)
  V2 (VAdd 4) 18 18 11; (* 4680: add v18.4s, v18.4s, v11.4s *)
  V2 (VAdd 4) 19 19 11; (* 4681: add v19.4s, v19.4s, v11.4s *)
  V2 (VAdd 4) 20 20 12; (* 4682: add v20.4s, v20.4s, v12.4s *)
  V2 (VAdd 4) 21 21 12; (* 4683: add v21.4s, v21.4s, v12.4s *)
  V2 (VAdd 4) 22 22 13; (* 4684: add v22.4s, v22.4s, v13.4s *)
  V2 (VAdd 4) 23 23 13; (* 4685: add v23.4s, v23.4s, v13.4s *)
  DupLane 4 4 10 15 0; (* 4686: dup v10.4s, v15.s[0] *)
  DupLane 4 4 11 15 1; (* 4687: dup v11.4s, v15.s[1] *)
  DupLane 4 4 12 15 2; (* 4688: dup v12.4s, v15.s[2] *)
  DupLane 4 4 13 15 3; (* 4689: dup v13.4s, v15.s[3] *)
  V2 (VAdd 4) 24 24 10; (* 4690: add v24.4s, v24.4s, v10.4s *)
  V2 (VAdd 4) 25 25 10; (* 4691: add v25.4s, v25.4s, v10.4s *)
  V2 (VAdd 4) 26 26 11; (* 4692: add v26.4s, v26.4s, v11.4s *)
  V2 (VAdd 4) 27 27 11; (* 4693: add v27.4s, v27.4s, v11.4s *)
  V2 (VAdd 4) 28 28 12; (* 4694: add v28.4s, v28.4s, v12.4s *)
  V2 (VAdd 4) 29 29 12; (* 4695: add v29.4s, v29.4s, v12.4s *)
  V2 (VAdd 4) 30 30 13; (* 4696: add v30.4s, v30.4s, v13.4s *)
  V2 (VAdd 4) 31 31 13; (* 4697: add v31.4s, v31.4s, v13.4s *)
  Label 7; (* 4698: 7: *)
  Tst W 6 (Imm 4); (* 4700: tst w6, #0x4 *)
  B EQ (Fwd 401); (* 4701: beq 401f *)
  Ldr 8 3 params (Imm 16); (* 4702: ldr x3, [%[params], #16] *)
  Alu AAdd false X 3 3 (Lsl col 2); (* 4703: add x3, x3, %x[col], lsl #2 *)
  Ld1 16 14 3 (Imm 16); (* 4704: ld1 {v14.4s}, [x3], #16 *)
  Ld1 16 15 3 (Imm 0); (* 4705: ld1 {v15.4s}, [x3] *)
  Ldr 4 5 params (Imm 64); (* 4706: ldr w5, [%[params], #64] *)
  Dup 4 4 10 5; (* 4707: dup v10.4s, w5 *)
  MlsLane 16 10 14 0; (* 4710: mls v16.4s, v10.4s, v14.s[0] *)
  MlsLane 17 10 14 0; (* 4711: mls v17.4s, v10.4s, v14.s[0] *)
  MlsLane 18 10 14 1; (* 4712: mls v18.4s, v10.4s, v14.s[1] *)
  MlsLane 19 10 14 1; (* 4713: mls v19.4s, v10.4s, v14.s[1] *)
  MlsLane 20 10 14 2; (* 4714: mls v20.4s, v10.4s, v14.s[2] *)
  MlsLane 21 10 14 2; (* 4715: mls v21.4s, v10.4s, v14.s[2] *)
  MlsLane 22 10 14 3; (* 4716: mls v22.4s, v10.4s, v14.s[3] *)
  MlsLane 23 10 14 3; (* 4717: mls v23.4s, v10.4s, v14.s[3] *)
  MlsLane 24 10 15 0; (* 4718: mls v24.4s, v10.4s, v15.s[0] *)
  MlsLane 25 10 15 0; (* 4719: mls v25.4s, v10.4s, v15.s[0] *)
  MlsLane 26 10 15 1; (* 4720: mls v26.4s, v10.4s, v15.s[1] *)
  MlsLane 27 10 15 1; (* 4721: mls v27.4s, v10.4s, v15.s[1] *)
  MlsLane 28 10 15 2; (* 4722: mls v28.4s, v10.4s, v15.s[2] *)
  MlsLane 29 10 15 2; (* 4723: mls v29.4s, v10.4s, v15.s[2] *)
  MlsLane 30 10 15 3; (* 4724: mls v30.4s, v10.4s, v15.s[3] *)
  MlsLane 31 10 15 3; (* 4725: mls v31.4s, v10.4s, v15.s[3] *)
  Label 401; (* 4726: 401: *)
  Tst W 6 (Imm 2); (* 4728: tst w6, #0x2 *)
  B EQ (Fwd 402); (* 4729: beq 402f *)
  Ldr 8 2 params (Imm 8); (* 4730: ldr x2, [%[params], #8] *)
  Alu AAdd false X 2 2 (Lsl row 2); (* 4731: add x2, x2, %x[row], lsl #2 *)
  Ldr 4 5 params (Imm 68); (* 4732: ldr w5, [%[params], #68] *)
  Ld1 16 11 2 (Imm 16); (* 4734: ld1 {v11.4s}, [x2], #16 *)
  Ld1 16 12 2 (Imm 0); (* 4735: ld1 {v12.4s}, [x2] *)
  Ins 4 13 1 5; (* 4736: ins v13.s[1], w5 *)
  MulLane 11 11 13 1; (* 4738: mul v11.4s, v11.4s, v13.s[1] *)
  MulLane 12 12 13 1; (* 4739: mul v12.4s, v12.4s, v13.s[1] *)
  V2 (VSub 4) 16 16 11; (* 4742: sub v16.4s, v16.4s, v11.4s *)
  V2 (VSub 4) 17 17 12; (* 4743: sub v17.4s, v17.4s, v12.4s *)
  V2 (VSub 4) 18 18 11; (* 4744: sub v18.4s, v18.4s, v11.4s *)
  V2 (VSub 4) 19 19 12; (* 4745: sub v19.4s, v19.4s, v12.4s *)
  V2 (VSub 4) 20 20 11; (* 4746: sub v20.4s, v20.4s, v11.4s *)
  V2 (VSub 4) 21 21 12; (* 4747: sub v21.4s, v21.4s, v12.4s *)
  V2 (VSub 4) 22 22 11; (* 4748: sub v22.4s, v22.4s, v11.4s *)
  V2 (VSub 4) 23 23 12; (* 4749: sub v23.4s, v23.4s, v12.4s *)
  V2 (VSub 4) 24 24 11; (* 4750: sub v24.4s, v24.4s, v11.4s *)
  V2 (VSub 4) 25 25 12; (* 4751: sub v25.4s, v25.4s, v12.4s *)
  V2 (VSub 4) 26 26 11; (* 4752: sub v26.4s, v26.4s, v11.4s *)
  V2 (VSub 4) 27 27 12; (* 4753: sub v27.4s, v27.4s, v12.4s *)
  V2 (VSub 4) 28 28 11; (* 4754: sub v28.4s, v28.4s, v11.4s *)
  V2 (VSub 4) 29 29 12; (* 4755: sub v29.4s, v29.4s, v12.4s *)
  V2 (VSub 4) 30 30 11; (* 4756: sub v30.4s, v30.4s, v11.4s *)
  V2 (VSub 4) 31 31 12; (* 4757: sub v31.4s, v31.4s, v12.4s *)
  Cmp W dst_type_id (Imm 4); (* 4759: cmp %w[dst_type_id], #4 *)
  B EQ (Fwd 94); (* 4760: beq 94f *)
  Label 402; (* 4762: 402: *)
  Ldr 8 1 params (Imm 40); (* 4772: ldr x1, [%[params], #40] *)
  Tst W 6 (Imm 32); (* 4774: tst w6, #0x20 *)
  Csel W 3 row col EQ; (* 4775: csel w3, %w[row], %w[col], eq *)
  Tst W 6 (Imm 8); (* 4777: tst w6, #0x8 *)
  Alu AAdd false X 5 1 (Lsl 3 2); (* 4778: add x5, x1, x3, lsl #2 *)
  Csel X 1 1 5 EQ; (* 4779: csel x1, x1, x5, eq *)
  LdrQ 9 1 (Imm 0); (* 4781: ldr q9, [x1] *)
  LdrQ 10 1 (Imm 16); (* 4782: ldr q10, [x1, #16] *)
  V2 (Smin 4) 11 8 9; (* 4784: smin v11.4s, v8.4s, v9.4s *)
  V2 (Smin 4) 12 8 10; (* 4785: smin v12.4s, v8.4s, v10.4s *)
  V2 (VSub 4) 9 9 11; (* 4786: sub v9.4s, v9.4s, v11.4s *)
  V2 (VSub 4) 10 10 12; (* 4787: sub v10.4s, v10.4s, v12.4s *)
  Ldr 8 4 params (Imm 32); (* 4790: ldr x4, [%[params], #32] *)
  Alu AAdd false X 5 4 (Lsl 3 2); (* 4791: add x5, x4, x3, lsl #2 *)
  Csel X 4 4 5 EQ; (* 4792: csel x4, x4, x5, eq *)
  LdrQ 14 4 (Imm 0); (* 4794: ldr q14, [x4] *)
  LdrQ 15 4 (Imm 16); (* 4795: ldr q15, [x4, #16] *)
  Tst W 6 (Imm 32); (* 4798: tst w6, #0x20 *)
  B NE (Fwd 8); (* 4799: bne 8f *)
  V2 (Sshl 4) 16 16 9; (* 4803: sshl v16.4s, v16.4s, v9.4s *)
  V2 (Sshl 4) 17 17 10; (* 4804: sshl v17.4s, v17.4s, v10.4s *)
  V2 (Sshl 4) 18 18 9; (* 4805: sshl v18.4s, v18.4s, v9.4s *)
  V2 (Sshl 4) 19 19 10; (* 4806: sshl v19.4s, v19.4s, v10.4s *)
  V2 (Sshl 4) 20 20 9; (* 4807: sshl v20.4s, v20.4s, v9.4s *)
  V2 (Sshl 4) 21 21 10; (* 4808: sshl v21.4s, v21.4s, v10.4s *)
  V2 (Sshl 4) 22 22 9; (* 4809: sshl v22.4s, v22.4s, v9.4s *)
  V2 (Sshl 4) 23 23 10; (* 4810: sshl v23.4s, v23.4s, v10.4s *)
  V2 (Sshl 4) 24 24 9; (* 4811: sshl v24.4s, v24.4s, v9.4s *)
  V2 (Sshl 4) 25 25 10; (* 4812: sshl v25.4s, v25.4s, v10.4s *)
  V2 (Sshl 4) 26 26 9; (* 4813: sshl v26.4s, v26.4s, v9.4s *)
  V2 (Sshl 4) 27 27 10; (* 4814: sshl v27.4s, v27.4s, v10.4s *)
  V2 (Sshl 4) 28 28 9; (* 4815: sshl v28.4s, v28.4s, v9.4s *)
  V2 (Sshl 4) 29 29 10; (* 4816: sshl v29.4s, v29.4s, v10.4s *)
  V2 (Sshl 4) 30 30 9; (* 4817: sshl v30.4s, v30.4s, v9.4s *)
  V2 (Sshl 4) 31 31 10; (* 4818: sshl v31.4s, v31.4s, v10.4s *)
  Label 10; (* 4819: 10: *)
  V2 (Sqdmulh 4) 16 16 14; (* 4822: sqdmulh v16.4s, v16.4s, v14.4s *)
  V2 (Sqdmulh 4) 17 17 15; (* 4823: sqdmulh v17.4s, v17.4s, v15.4s *)
  V2 (Sqdmulh 4) 18 18 14; (* 4824: sqdmulh v18.4s, v18.4s, v14.4s *)
  V2 (Sqdmulh 4) 19 19 15; (* 4825: sqdmulh v19.4s, v19.4s, v15.4s *)
  V2 (Sqdmulh 4) 20 20 14; (* 4826: sqdmulh v20.4s, v20.4s, v14.4s *)
  V2 (Sqdmulh 4) 21 21 15; (* 4827: sqdmulh v21.4s, v21.4s, v15.4s *)
  V2 (Sqdmulh 4) 22 22 14; (* 4828: sqdmulh v22.4s, v22.4s, v14.4s *)
  V2 (Sqdmulh 4) 23 23 15; (* 4829: sqdmulh v23.4s, v23.4s, v15.4s *)
  V2 (Sqdmulh 4) 24 24 14; (* 4830: sqdmulh v24.4s, v24.4s, v14.4s *)
  V2 (Sqdmulh 4) 25 25 15; (* 4831: sqdmulh v25.4s, v25.4s, v15.4s *)
  V2 (Sqdmulh 4) 26 26 14; (* 4832: sqdmulh v26.4s, v26.4s, v14.4s *)
  V2 (Sqdmulh 4) 27 27 15; (* 4833: sqdmulh v27.4s, v27.4s, v15.4s *)
  V2 (Sqdmulh 4) 28 28 14; (* 4834: sqdmulh v28.4s, v28.4s, v14.4s *)
  V2 (Sqdmulh 4) 29 29 15; (* 4835: sqdmulh v29.4s, v29.4s, v15.4s *)
  V2 (Sqdmulh 4) 30 30 14; (* 4836: sqdmulh v30.4s, v30.4s, v14.4s *)
  V2 (Sqdmulh 4) 31 31 15; (* 4837: sqdmulh v31.4s, v31.4s, v15.4s *)
  V2 (Srshl 4) 16 16 11; (* 4840: srshl v16.4s, v16.4s, v11.4s *)
  V2 (Srshl 4) 17 17 12; (* 4841: srshl v17.4s, v17.4s, v12.4s *)
  V2 (Srshl 4) 18 18 11; (* 4842: srshl v18.4s, v18.4s, v11.4s *)
  V2 (Srshl 4) 19 19 12; (* 4843: srshl v19.4s, v19.4s, v12.4s *)
  V2 (Srshl 4) 20 20 11; (* 4844: srshl v20.4s, v20.4s, v11.4s *)
  V2 (Srshl 4) 21 21 12; (* 4845: srshl v21.4s, v21.4s, v12.4s *)
  V2 (Srshl 4) 22 22 11; (* 4846: srshl v22.4s, v22.4s, v11.4s *)
  V2 (Srshl 4) 23 23 12; (* 4847: srshl v23.4s, v23.4s, v12.4s *)
  V2 (Srshl 4) 24 24 11; (* 4848: srshl v24.4s, v24.4s, v11.4s *)
  V2 (Srshl 4) 25 25 12; (* 4849: srshl v25.4s, v25.4s, v12.4s *)
  V2 (Srshl 4) 26 26 11; (* 4850: srshl v26.4s, v26.4s, v11.4s *)
  V2 (Srshl 4) 27 27 12; (* 4851: srshl v27.4s, v27.4s, v12.4s *)
  V2 (Srshl 4) 28 28 11; (* 4852: srshl v28.4s, v28.4s, v11.4s *)
  V2 (Srshl 4) 29 29 12; (* 4853: srshl v29.4s, v29.4s, v12.4s *)
  V2 (Srshl 4) 30 30 11; (* 4854: srshl v30.4s, v30.4s, v11.4s *)
  V2 (Srshl 4) 31 31 12; (* 4855: srshl v31.4s, v31.4s, v12.4s *)
  B Always (Fwd 9); (* 4856: b 9f *)
  Label 8; (* 4858: 8: *)
  DupLane 4 4 4 9 0; (* 4862: dup v4.4s, v9.s[0] *)
  DupLane 4 4 5 9 1; (* 4863: dup v5.4s, v9.s[1] *)
  DupLane 4 4 6 9 2; (* 4864: dup v6.4s, v9.s[2] *)
  DupLane 4 4 7 9 3; (* 4865: dup v7.4s, v9.s[3] *)
  V2 (Sshl 4) 16 16 4; (* 4866: sshl v16.4s, v16.4s, v4.4s *)
  V2 (Sshl 4) 17 17 4; (* 4867: sshl v17.4s, v17.4s, v4.4s *)
  V2 (Sshl 4) 18 18 5; (* 4868: sshl v18.4s, v18.4s, v5.4s *)
  V2 (Sshl 4) 19 19 5; (* 4869: sshl v19.4s, v19.4s, v5.4s *)
  V2 (Sshl 4) 20 20 6; (* 4870: sshl v20.4s, v20.4s, v6.4s *)
  V2 (Sshl 4) 21 21 6; (* 4871: sshl v21.4s, v21.4s, v6.4s *)
  V2 (Sshl 4) 22 22 7; (* 4872: sshl v22.4s, v22.4s, v7.4s *)
  V2 (Sshl 4) 23 23 7; (* 4873: sshl v23.4s, v23.4s, v7.4s *)
  DupLane 4 4 4 10 0; (* 4874: dup v4.4s, v10.s[0] *)
  DupLane 4 4 5 10 1; (* 4875: dup v5.4s, v10.s[1] *)
  DupLane 4 4 6 10 2; (* 4876: dup v6.4s, v10.s[2] *)
  DupLane 4 4 7 10 3; (* 4877: dup v7.4s, v10.s[3] *)
  V2 (Sshl 4) 24 24 4; (* 4878: sshl v24.4s, v24.4s, v4.4s *)
  V2 (Sshl 4) 25 25 4; (* 4879: sshl v25.4s, v25.4s, v4.4s *)
  V2 (Sshl 4) 26 26 5; (* 4880: sshl v26.4s, v26.4s, v5.4s *)
  V2 (Sshl 4) 27 27 5; (* 4881: sshl v27.4s, v27.4s, v5.4s *)
  V2 (Sshl 4) 28 28 6; (* 4882: sshl v28.4s, v28.4s, v6.4s *)
  V2 (Sshl 4) 29 29 6; (* 4883: sshl v29.4s, v29.4s, v6.4s *)
  V2 (Sshl 4) 30 30 7; (* 4884: sshl v30.4s, v30.4s, v7.4s *)
  V2 (Sshl 4) 31 31 7; (* 4885: sshl v31.4s, v31.4s, v7.4s *)
  Label 11; (* 4886: 11: *)
  SqdmulhLane 16 16 14 0; (* 4889: sqdmulh v16.4s, v16.4s, v14.s[0] *)
  SqdmulhLane 17 17 14 0; (* 4890: sqdmulh v17.4s, v17.4s, v14.s[0] *)
  SqdmulhLane 18 18 14 1; (* 4891: sqdmulh v18.4s, v18.4s, v14.s[1] *)
  SqdmulhLane 19 19 14 1; (* 4892: sqdmulh v19.4s, v19.4s, v14.s[1] *)
  SqdmulhLane 20 20 14 2; (* 4893: sqdmulh v20.4s, v20.4s, v14.s[2] *)
  SqdmulhLane 21 21 14 2; (* 4894: sqdmulh v21.4s, v21.4s, v14.s[2] *)
  SqdmulhLane 22 22 14 3; (* 4895: sqdmulh v22.4s, v22.4s, v14.s[3] *)
  SqdmulhLane 23 23 14 3; (* 4896: sqdmulh v23.4s, v23.4s, v14.s[3] *)
  SqdmulhLane 24 24 15 0; (* 4897: sqdmulh v24.4s, v24.4s, v15.s[0] *)
  SqdmulhLane 25 25 15 0; (* 4898: sqdmulh v25.4s, v25.4s, v15.s[0] *)
  SqdmulhLane 26 26 15 1; (* 4899: sqdmulh v26.4s, v26.4s, v15.s[1] *)
  SqdmulhLane 27 27 15 1; (* 4900: sqdmulh v27.4s, v27.4s, v15.s[1] *)
  SqdmulhLane 28 28 15 2; (* 4901: sqdmulh v28.4s, v28.4s, v15.s[2] *)
  SqdmulhLane 29 29 15 2; (* 4902: sqdmulh v29.4s, v29.4s, v15.s[2] *)
  SqdmulhLane 30 30 15 3; (* 4903: sqdmulh v30.4s, v30.4s, v15.s[3] *)
  SqdmulhLane 31 31 15 3; (* 4904: sqdmulh v31.4s, v31.4s, v15.s[3] *)
  DupLane 4 4 4 11 0; (* 4907: dup v4.4s, v11.s[0] *)
  DupLane 4 4 5 11 1; (* 4908: dup v5.4s, v11.s[1] *)
  DupLane 4 4 6 11 2; (* 4909: dup v6.4s, v11.s[2] *)
  DupLane 4 4 7 11 3; (* 4910: dup v7.4s, v11.s[3] *)
  V2 (Srshl 4) 16 16 4; (* 4911: srshl v16.4s, v16.4s, v4.4s *)
  V2 (Srshl 4) 17 17 4; (* 4912: srshl v17.4s, v17.4s, v4.4s *)
  V2 (Srshl 4) 18 18 5; (* 4913: srshl v18.4s, v18.4s, v5.4s *)
  V2 (Srshl 4) 19 19 5; (* 4914: srshl v19.4s, v19.4s, v5.4s *)
  V2 (Srshl 4) 20 20 6; (* 4915: srshl v20.4s, v20.4s, v6.4s *)
  V2 (Srshl 4) 21 21 6; (* 4916: srshl v21.4s, v21.4s, v6.4s *)
  V2 (Srshl 4) 22 22 7; (* 4917: srshl v22.4s, v22.4s, v7.4s *)
  V2 (Srshl 4) 23 23 7; (* 4918: srshl v23.4s, v23.4s, v7.4s *)
  DupLane 4 4 4 12 0; (* 4919: dup v4.4s, v12.s[0] *)
  DupLane 4 4 5 12 1; (* 4920: dup v5.4s, v12.s[1] *)
  DupLane 4 4 6 12 2; (* 4921: dup v6.4s, v12.s[2] *)
  DupLane 4 4 7 12 3; (* 4922: dup v7.4s, v12.s[3] *)
  V2 (Srshl 4) 24 24 4; (* 4923: srshl v24.4s, v24.4s, v4.4s *)
  V2 (Srshl 4) 25 25 4; (* 4924: srshl v25.4s, v25.4s, v4.4s *)
  V2 (Srshl 4) 26 26 5; (* 4925: srshl v26.4s, v26.4s, v5.4s *)
  V2 (Srshl 4) 27 27 5; (* 4926: srshl v27.4s, v27.4s, v5.4s *)
  V2 (Srshl 4) 28 28 6; (* 4927: srshl v28.4s, v28.4s, v6.4s *)
  V2 (Srshl 4) 29 29 6; (* 4928: srshl v29.4s, v29.4s, v6.4s *)
  V2 (Srshl 4) 30 30 7; (* 4929: srshl v30.4s, v30.4s, v7.4s *)
  V2 (Srshl 4) 31 31 7; (* 4930: srshl v31.4s, v31.4s, v7.4s *)
  Label 9; (* 4931: 9: *)
  Ldr 4 4 params (Imm 72); (* 4933: ldr w4, [%[params], #72] *)
  Ins 2 13 4 4; (* 4934: ins v13.h[4], w4 *)
  Cmp W dst_type_id (Imm 3); (* 4936: cmp %w[dst_type_id], #3 *)
  B EQ (Fwd 93); (* 4937: beq 93f *)
  Cmp W dst_type_id (Imm 2); (* 4938: cmp %w[dst_type_id], #2 *)
  B EQ (Fwd 92); (* 4939: beq 92f *)
  Label 91; (* 4941: 91: *)
  Narrow false false 2 16 16; (* 4944: sqxtn v16.4h, v16.4s *)
  Narrow false true 2 16 17; (* 4945: sqxtn2 v16.8h, v17.4s *)
  Narrow false false 2 17 18; (* 4946: sqxtn v17.4h, v18.4s *)
  Narrow false true 2 17 19; (* 4947: sqxtn2 v17.8h, v19.4s *)
  Narrow false false 2 18 20; (* 4948: sqxtn v18.4h, v20.4s *)
  Narrow false true 2 18 21; (* 4949: sqxtn2 v18.8h, v21.4s *)
  Narrow false false 2 19 22; (* 4950: sqxtn v19.4h, v22.4s *)
  Narrow false true 2 19 23; (* 4951: sqxtn2 v19.8h, v23.4s *)
  Narrow false false 2 20 24; (* 4952: sqxtn v20.4h, v24.4s *)
  Narrow false true 2 20 25; (* 4953: sqxtn2 v20.8h, v25.4s *)
  Narrow false false 2 21 26; (* 4954: sqxtn v21.4h, v26.4s *)
  Narrow false true 2 21 27; (* 4955: sqxtn2 v21.8h, v27.4s *)
  Narrow false false 2 22 28; (* 4956: sqxtn v22.4h, v28.4s *)
  Narrow false true 2 22 29; (* 4957: sqxtn2 v22.8h, v29.4s *)
  Narrow false false 2 23 30; (* 4958: sqxtn v23.4h, v30.4s *)
  Narrow false true 2 23 31; (* 4959: sqxtn2 v23.8h, v31.4s *)
  Movi 24 0; (* 4964: movi v24.4s, #0 *)
  Movi 25 0; (* 4965: movi v25.4s, #0 *)
  Movi 26 0; (* 4966: movi v26.4s, #0 *)
  Movi 27 0; (* 4967: movi v27.4s, #0 *)
  Movi 28 0; (* 4968: movi v28.4s, #0 *)
  Movi 29 0; (* 4969: movi v29.4s, #0 *)
  Movi 30 0; (* 4970: movi v30.4s, #0 *)
  Movi 31 0; (* 4971: movi v31.4s, #0 *)
  DupLane 2 8 14 13 4; (* 4974: dup v14.8h, v13.h[4] *)
  V2 (Sqadd 2) 16 16 14; (* 4975: sqadd v16.8h, v16.8h, v14.8h *)
  V2 (Sqadd 2) 17 17 14; (* 4976: sqadd v17.8h, v17.8h, v14.8h *)
  V2 (Sqadd 2) 18 18 14; (* 4977: sqadd v18.8h, v18.8h, v14.8h *)
  V2 (Sqadd 2) 19 19 14; (* 4978: sqadd v19.8h, v19.8h, v14.8h *)
  V2 (Sqadd 2) 20 20 14; (* 4979: sqadd v20.8h, v20.8h, v14.8h *)
  V2 (Sqadd 2) 21 21 14; (* 4980: sqadd v21.8h, v21.8h, v14.8h *)
  V2 (Sqadd 2) 22 22 14; (* 4981: sqadd v22.8h, v22.8h, v14.8h *)
  V2 (Sqadd 2) 23 23 14; (* 4982: sqadd v23.8h, v23.8h, v14.8h *)
  Narrow true false 1 16 16; (* 4985: sqxtun v16.8b, v16.8h *)
  Narrow true true 1 16 17; (* 4986: sqxtun2 v16.16b, v17.8h *)
  Narrow true false 1 17 18; (* 4987: sqxtun v17.8b, v18.8h *)
  Narrow true true 1 17 19; (* 4988: sqxtun2 v17.16b, v19.8h *)
  Narrow true false 1 18 20; (* 4989: sqxtun v18.8b, v20.8h *)
  Narrow true true 1 18 21; (* 4990: sqxtun2 v18.16b, v21.8h *)
  Narrow true false 1 19 22; (* 4991: sqxtun v19.8b, v22.8h *)
  Narrow true true 1 19 23; (* 4992: sqxtun2 v19.16b, v23.8h *)
  Ldr 1 2 params (Imm 120); (* 4995: ldrb w2, [%[params], #120] *)
  Ldr 1 3 params (Imm 124); (* 4996: ldrb w3, [%[params], #124] *)
  Dup 1 16 14 2; (* 4997: dup v14.16b, w2 *)
  Dup 1 16 15 3; (* 4998: dup v15.16b, w3 *)
  V2 (Umax 1) 16 16 14; (* 5001: umax v16.16b, v16.16b, v14.16b *)
  V2 (Umax 1) 17 17 14; (* 5002: umax v17.16b, v17.16b, v14.16b *)
  V2 (Umax 1) 18 18 14; (* 5003: umax v18.16b, v18.16b, v14.16b *)
  V2 (Umax 1) 19 19 14; (* 5004: umax v19.16b, v19.16b, v14.16b *)
  V2 (Umin 1) 16 16 15; (* 5007: umin v16.16b, v16.16b, v15.16b *)
  V2 (Umin 1) 17 17 15; (* 5008: umin v17.16b, v17.16b, v15.16b *)
  V2 (Umin 1) 18 18 15; (* 5009: umin v18.16b, v18.16b, v15.16b *)
  V2 (Umin 1) 19 19 15; (* 5010: umin v19.16b, v19.16b, v15.16b *)
  DupLane 8 1 20 16 1; (* 5015: dup d20, v16.d[1] *)
  DupLane 8 1 21 17 1; (* 5016: dup d21, v17.d[1] *)
  DupLane 8 1 22 18 1; (* 5017: dup d22, v18.d[1] *)
  DupLane 8 1 23 19 1; (* 5018: dup d23, v19.d[1] *)
  Alu ASub false W 1 dst_rows (Reg row); (* 5025: sub w1, %w[dst_rows], %w[row] *)
  Alu ASub false W 2 dst_cols (Reg col); (* 5026: sub w2, %w[dst_cols], %w[col] *)
  Mov W 3 (Imm 8); (* 5027: mov w3, #8 *)
  Cmp W 1 (Imm 8); (* 5028: cmp w1, #8 *)
  Csel W 1 1 3 LE; (* 5030: csel w1, w1, w3, le *)
  Cmp W 2 (Imm 8); (* 5031: cmp w2, #8 *)
  Csel W 2 2 3 LE; (* 5033: csel w2, w2, w3, le *)
  Cmp W 1 (Reg 3); (* 5036: cmp w1, w3 *)
  Ccmp W 2 (Reg 3) EQ; (* 5037: ccmp w2, w3, 0, eq *)
  B EQ (Fwd 30); (* 5039: beq 30f *)
  Mov X 3 (Reg dst_tmp_buf); (* 5042: mov x3, %[dst_tmp_buf] *)
  Mov X 4 (Imm 8); (* 5043: mov x4, #8 *)
  B Always (Fwd 31); (* 5044: b 31f *)
  Label 30; (* 5045: 30: *)
  Mov X 3 (Reg dst_ptr); (* 5048: mov x3, %[dst_ptr] *)
  Mov X 4 (Reg 11); (* 5049: mov x4, x11 *)
  Label 31; (* 5050: 31: *)
  Nop; (* 5054: prfm pstl1strm, [x3] *)
  St1 8 16 3 (Reg 4); (* 5055: st1 {v16.8b}, [x3], x4 *)
  Movi 16 0; (* 5056: movi v16.4s, #0 *)
  Nop; (* 5057: prfm pstl1strm, [x3] *)
  St1 8 20 3 (Reg 4); (* 5058: st1 {v20.8b}, [x3], x4 *)
  Movi 20 0; (* 5059: movi v20.4s, #0 *)
  Nop; (* 5060: prfm pstl1strm, [x3] *)
  St1 8 17 3 (Reg 4); (* 5061: st1 {v17.8b}, [x3], x4 *)
  Movi 17 0; (* 5062: movi v17.4s, #0 *)
  Nop; (* 5063: prfm pstl1strm, [x3] *)
  St1 8 21 3 (Reg 4); (* 5064: st1 {v21.8b}, [x3], x4 *)
  Movi 21 0; (* 5065: movi v21.4s, #0 *)
  Nop; (* 5066: prfm pstl1strm, [x3] *)
  St1 8 18 3 (Reg 4); (* 5067: st1 {v18.8b}, [x3], x4 *)
  Movi 18 0; (* 5068: movi v18.4s, #0 *)
  Nop; (* 5069: prfm pstl1strm, [x3] *)
  St1 8 22 3 (Reg 4); (* 5070: st1 {v22.8b}, [x3], x4 *)
  Movi 22 0; (* 5071: movi v22.4s, #0 *)
  Nop; (* 5072: prfm pstl1strm, [x3] *)
  St1 8 19 3 (Reg 4); (* 5073: st1 {v19.8b}, [x3], x4 *)
  Movi 19 0; (* 5074: movi v19.4s, #0 *)
  Nop; (* 5075: prfm pstl1strm, [x3] *)
  St1 8 23 3 (Reg 4); (* 5076: st1 {v23.8b}, [x3], x4 *)
  Movi 23 0; (* 5077: movi v23.4s, #0 *)
  Inst 0x4f82e010; (* 5081: .inst 0x4f82e010  // sdot v16.4s, v0.16b, v2.4b[0] *)
  Inst 0x4fa2e012; (* 5082: .inst 0x4fa2e012  // sdot v18.4s, v0.16b, v2.4b[1] *)
  Inst 0x4f82e814; (* 5083: .inst 0x4f82e814  // sdot v20.4s, v0.16b, v2.4b[2] *)
  Inst 0x4fa2e816; (* 5084: .inst 0x4fa2e816  // sdot v22.4s, v0.16b, v2.4b[3] *)
  B EQ (Fwd 41); (* 5088: beq 41f *)
  Mov X 3 (Reg dst_tmp_buf); (* 5092: mov x3, %[dst_tmp_buf] *)
  Mov X 4 (Reg dst_ptr); (* 5093: mov x4, %[dst_ptr] *)
  Mov W 6 (Imm 0); (* 5094: mov w6, #0 *)
  Label 50; (* 5095: 50: *)
  Nop; (* 5096: prfm pstl1strm, [x4] *)
  Mov W 5 (Imm 0); (* 5097: mov w5, #0 *)
  Label 51; (* 5098: 51: *)
  Ldr 1 7 3 (Uxtw 5); (* 5099: ldrb w7, [x3, w5, uxtw] *)
  Str 1 7 4 (Uxtw 5); (* 5100: strb w7, [x4, w5, uxtw] *)
  Alu AAdd false W 5 5 (Imm 1); (* 5101: add w5, w5, #1 *)
  Cmp W 5 (Reg 1); (* 5102: cmp w5, w1 *)
  B LT (Back 51); (* 5103: blt 51b *)
  Alu AAdd false W 6 6 (Imm 1); (* 5104: add w6, w6, #1 *)
  Alu AAdd false X 3 3 (Imm 8); (* 5105: add x3, x3, #8 *)
  Alu AAdd false X 4 4 (Reg 11); (* 5106: add x4, x4, x11 *)
  Cmp W 6 (Reg 2); (* 5107: cmp w6, w2 *)
  B LT (Back 50); (* 5108: blt 50b *)
  Label 41; (* 5109: 41: *)
  Alu AAdd false X dst_ptr dst_ptr (Imm 8); (* 5110: add %[dst_ptr], %[dst_ptr], #8 *)
  B Always (Fwd 99); (* 5114: b 99f *)
  Label 92; (* 5116: 92: *)
  Narrow false false 2 16 16; (* 5119: sqxtn v16.4h, v16.4s *)
  Narrow false true 2 16 17; (* 5120: sqxtn2 v16.8h, v17.4s *)
  Narrow false false 2 17 18; (* 5121: sqxtn v17.4h, v18.4s *)
  Narrow false true 2 17 19; (* 5122: sqxtn2 v17.8h, v19.4s *)
  Narrow false false 2 18 20; (* 5123: sqxtn v18.4h, v20.4s *)
  Narrow false true 2 18 21; (* 5124: sqxtn2 v18.8h, v21.4s *)
  Narrow false false 2 19 22; (* 5125: sqxtn v19.4h, v22.4s *)
  Narrow false true 2 19 23; (* 5126: sqxtn2 v19.8h, v23.4s *)
  Narrow false false 2 20 24; (* 5127: sqxtn v20.4h, v24.4s *)
  Narrow false true 2 20 25; (* 5128: sqxtn2 v20.8h, v25.4s *)
  Narrow false false 2 21 26; (* 5129: sqxtn v21.4h, v26.4s *)
  Narrow false true 2 21 27; (* 5130: sqxtn2 v21.8h, v27.4s *)
  Narrow false false 2 22 28; (* 5131: sqxtn v22.4h, v28.4s *)
  Narrow false true 2 22 29; (* 5132: sqxtn2 v22.8h, v29.4s *)
  Narrow false false 2 23 30; (* 5133: sqxtn v23.4h, v30.4s *)
  Narrow false true 2 23 31; (* 5134: sqxtn2 v23.8h, v31.4s *)
  Movi 24 0; (* 5139: movi v24.4s, #0 *)
  Movi 25 0; (* 5140: movi v25.4s, #0 *)
  Movi 26 0; (* 5141: movi v26.4s, #0 *)
  Movi 27 0; (* 5142: movi v27.4s, #0 *)
  Movi 28 0; (* 5143: movi v28.4s, #0 *)
  Movi 29 0; (* 5144: movi v29.4s, #0 *)
  Movi 30 0; (* 5145: movi v30.4s, #0 *)
  Movi 31 0; (* 5146: movi v31.4s, #0 *)
  DupLane 2 8 14 13 4; (* 5149: dup v14.8h, v13.h[4] *)
  V2 (Sqadd 2) 16 16 14; (* 5150: sqadd v16.8h, v16.8h, v14.8h *)
  V2 (Sqadd 2) 17 17 14; (* 5151: sqadd v17.8h, v17.8h, v14.8h *)
  V2 (Sqadd 2) 18 18 14; (* 5152: sqadd v18.8h, v18.8h, v14.8h *)
  V2 (Sqadd 2) 19 19 14; (* 5153: sqadd v19.8h, v19.8h, v14.8h *)
  V2 (Sqadd 2) 20 20 14; (* 5154: sqadd v20.8h, v20.8h, v14.8h *)
  V2 (Sqadd 2) 21 21 14; (* 5155: sqadd v21.8h, v21.8h, v14.8h *)
  V2 (Sqadd 2) 22 22 14; (* 5156: sqadd v22.8h, v22.8h, v14.8h *)
  V2 (Sqadd 2) 23 23 14; (* 5157: sqadd v23.8h, v23.8h, v14.8h *)
  Narrow false false 1 16 16; (* 5160: sqxtn v16.8b, v16.8h *)
  Narrow false true 1 16 17; (* 5161: sqxtn2 v16.16b, v17.8h *)
  Narrow false false 1 17 18; (* 5162: sqxtn v17.8b, v18.8h *)
  Narrow false true 1 17 19; (* 5163: sqxtn2 v17.16b, v19.8h *)
  Narrow false false 1 18 20; (* 5164: sqxtn v18.8b, v20.8h *)
  Narrow false true 1 18 21; (* 5165: sqxtn2 v18.16b, v21.8h *)
  Narrow false false 1 19 22; (* 5166: sqxtn v19.8b, v22.8h *)
  Narrow false true 1 19 23; (* 5167: sqxtn2 v19.16b, v23.8h *)
  Ldr 1 2 params (Imm 120); (* 5170: ldrb w2, [%[params], #120] *)
  Ldr 1 3 params (Imm 124); (* 5171: ldrb w3, [%[params], #124] *)
  Dup 1 16 14 2; (* 5172: dup v14.16b, w2 *)
  Dup 1 16 15 3; (* 5173: dup v15.16b, w3 *)
  V2 (Smax 1) 16 16 14; (* 5176: smax v16.16b, v16.16b, v14.16b *)
  V2 (Smax 1) 17 17 14; (* 5177: smax v17.16b, v17.16b, v14.16b *)
  V2 (Smax 1) 18 18 14; (* 5178: smax v18.16b, v18.16b, v14.16b *)
  V2 (Smax 1) 19 19 14; (* 5179: smax v19.16b, v19.16b, v14.16b *)
  V2 (Smin 1) 16 16 15; (* 5182: smin v16.16b, v16.16b, v15.16b *)
  V2 (Smin 1) 17 17 15; (* 5183: smin v17.16b, v17.16b, v15.16b *)
  V2 (Smin 1) 18 18 15; (* 5184: smin v18.16b, v18.16b, v15.16b *)
  V2 (Smin 1) 19 19 15; (* 5185: smin v19.16b, v19.16b, v15.16b *)
  DupLane 8 1 20 16 1; (* 5190: dup d20, v16.d[1] *)
  DupLane 8 1 21 17 1; (* 5191: dup d21, v17.d[1] *)
  DupLane 8 1 22 18 1; (* 5192: dup d22, v18.d[1] *)
  DupLane 8 1 23 19 1; (* 5193: dup d23, v19.d[1] *)
  Alu ASub false W 1 dst_rows (Reg row); (* 5200: sub w1, %w[dst_rows], %w[row] *)
  Alu ASub false W 2 dst_cols (Reg col); (* 5201: sub w2, %w[dst_cols], %w[col] *)
  Mov W 3 (Imm 8); (* 5202: mov w3, #8 *)
  Cmp W 1 (Imm 8); (* 5203: cmp w1, #8 *)
  Csel W 1 1 3 LE; (* 5205: csel w1, w1, w3, le *)
  Cmp W 2 (Imm 8); (* 5206: cmp w2, #8 *)
  Csel W 2 2 3 LE; (* 5208: csel w2, w2, w3, le *)
  Cmp W 1 (Reg 3); (* 5211: cmp w1, w3 *)
  Ccmp W 2 (Reg 3) EQ; (* 5212: ccmp w2, w3, 0, eq *)
  B EQ (Fwd 130); (* 5214: beq 130f *)
  Mov X 3 (Reg dst_tmp_buf); (* 5217: mov x3, %[dst_tmp_buf] *)
  Mov X 4 (Imm 8); (* 5218: mov x4, #8 *)
  B Always (Fwd 131); (* 5219: b 131f *)
  Label 130; (* 5220: 130: *)
  Mov X 3 (Reg dst_ptr); (* 5223: mov x3, %[dst_ptr] *)
  Mov X 4 (Reg 11); (* 5224: mov x4, x11 *)
  Label 131; (* 5225: 131: *)
  Nop; (* 5229: prfm pstl1strm, [x3] *)
  St1 8 16 3 (Reg 4); (* 5230: st1 {v16.8b}, [x3], x4 *)
  Movi 16 0; (* 5231: movi v16.4s, #0 *)
  Nop; (* 5232: prfm pstl1strm, [x3] *)
  St1 8 20 3 (Reg 4); (* 5233: st1 {v20.8b}, [x3], x4 *)
  Movi 20 0; (* 5234: movi v20.4s, #0 *)
  Nop; (* 5235: prfm pstl1strm, [x3] *)
  St1 8 17 3 (Reg 4); (* 5236: st1 {v17.8b}, [x3], x4 *)
  Movi 17 0; (* 5237: movi v17.4s, #0 *)
  Nop; (* 5238: prfm pstl1strm, [x3] *)
  St1 8 21 3 (Reg 4); (* 5239: st1 {v21.8b}, [x3], x4 *)
  Movi 21 0; (* 5240: movi v21.4s, #0 *)
  Nop; (* 5241: prfm pstl1strm, [x3] *)
  St1 8 18 3 (Reg 4); (* 5242: st1 {v18.8b}, [x3], x4 *)
  Movi 18 0; (* 5243: movi v18.4s, #0 *)
  Nop; (* 5244: prfm pstl1strm, [x3] *)
  St1 8 22 3 (Reg 4); (* 5245: st1 {v22.8b}, [x3], x4 *)
  Movi 22 0; (* 5246: movi v22.4s, #0 *)
  Nop; (* 5247: prfm pstl1strm, [x3] *)
  St1 8 19 3 (Reg 4); (* 5248: st1 {v19.8b}, [x3], x4 *)
  Movi 19 0; (* 5249: movi v19.4s, #0 *)
  Nop; (* 5250: prfm pstl1strm, [x3] *)
  St1 8 23 3 (Reg 4); (* 5251: st1 {v23.8b}, [x3], x4 *)
  Movi 23 0; (* 5252: movi v23.4s, #0 *)
  Inst 0x4f82e010; (* 5256: .inst 0x4f82e010  // sdot v16.4s, v0.16b, v2.4b[0] *)
  Inst 0x4fa2e012; (* 5257: .inst 0x4fa2e012  // sdot v18.4s, v0.16b, v2.4b[1] *)
  Inst 0x4f82e814; (* 5258: .inst 0x4f82e814  // sdot v20.4s, v0.16b, v2.4b[2] *)
  Inst 0x4fa2e816; (* 5259: .inst 0x4fa2e816  // sdot v22.4s, v0.16b, v2.4b[3] *)
  B EQ (Fwd 141); (* 5263: beq 141f *)
  Mov X 3 (Reg dst_tmp_buf); (* 5267: mov x3, %[dst_tmp_buf] *)
  Mov X 4 (Reg dst_ptr); (* 5268: mov x4, %[dst_ptr] *)
  Mov W 6 (Imm 0); (* 5269: mov w6, #0 *)
  Label 150; (* 5270: 150: *)
  Nop; (* 5271: prfm pstl1strm, [x4] *)
  Mov W 5 (Imm 0); (* 5272: mov w5, #0 *)
  Label 151; (* 5273: 151: *)
  Ldr 1 7 3 (Uxtw 5); (* 5274: ldrb w7, [x3, w5, uxtw] *)
  Str 1 7 4 (Uxtw 5); (* 5275: strb w7, [x4, w5, uxtw] *)
  Alu AAdd false W 5 5 (Imm 1); (* 5276: add w5, w5, #1 *)
  Cmp W 5 (Reg 1); (* 5277: cmp w5, w1 *)
  B LT (Back 151); (* 5278: blt 151b *)
  Alu AAdd false W 6 6 (Imm 1); (* 5279: add w6, w6, #1 *)
  Alu AAdd false X 3 3 (Imm 8); (* 5280: add x3, x3, #8 *)
  Alu AAdd false X 4 4 (Reg 11); (* 5281: add x4, x4, x11 *)
  Cmp W 6 (Reg 2); (* 5282: cmp w6, w2 *)
  B LT (Back 150); (* 5283: blt 150b *)
  Label 141; (* 5284: 141: *)
  Alu AAdd false X dst_ptr dst_ptr (Imm 8); (* 5285: add %[dst_ptr], %[dst_ptr], #8 *)
  B Always (Fwd 99); (* 5289: b 99f *)
  Label 93; (* 5291: 93: *)
  DupLane 2 8 14 13 4; (* 5294: dup v14.8h, v13.h[4] *)
  Saddw 16 16 14; (* 5295: saddw v16.4s, v16.4s, v14.4h *)
  Saddw 17 17 14; (* 5296: saddw v17.4s, v17.4s, v14.4h *)
  Saddw 18 18 14; (* 5297: saddw v18.4s, v18.4s, v14.4h *)
  Saddw 19 19 14; (* 5298: saddw v19.4s, v19.4s, v14.4h *)
  Saddw 20 20 14; (* 5299: saddw v20.4s, v20.4s, v14.4h *)
  Saddw 21 21 14; (* 5300: saddw v21.4s, v21.4s, v14.4h *)
  Saddw 22 22 14; (* 5301: saddw v22.4s, v22.4s, v14.4h *)
  Saddw 23 23 14; (* 5302: saddw v23.4s, v23.4s, v14.4h *)
  Saddw 24 24 14; (* 5303: saddw v24.4s, v24.4s, v14.4h *)
  Saddw 25 25 14; (* 5304: saddw v25.4s, v25.4s, v14.4h *)
  Saddw 26 26 14; (* 5305: saddw v26.4s, v26.4s, v14.4h *)
  Saddw 27 27 14; (* 5306: saddw v27.4s, v27.4s, v14.4h *)
  Saddw 28 28 14; (* 5307: saddw v28.4s, v28.4s, v14.4h *)
  Saddw 29 29 14; (* 5308: saddw v29.4s, v29.4s, v14.4h *)
  Saddw 30 30 14; (* 5309: saddw v30.4s, v30.4s, v14.4h *)
  Saddw 31 31 14; (* 5310: saddw v31.4s, v31.4s, v14.4h *)
  Narrow false false 2 16 16; (* 5313: sqxtn v16.4h, v16.4s *)
  Narrow false true 2 16 17; (* 5314: sqxtn2 v16.8h, v17.4s *)
  Narrow false false 2 17 18; (* 5315: sqxtn v17.4h, v18.4s *)
  Narrow false true 2 17 19; (* 5316: sqxtn2 v17.8h, v19.4s *)
  Narrow false false 2 18 20; (* 5317: sqxtn v18.4h, v20.4s *)
  Narrow false true 2 18 21; (* 5318: sqxtn2 v18.8h, v21.4s *)
  Narrow false false 2 19 22; (* 5319: sqxtn v19.4h, v22.4s *)
  Narrow false true 2 19 23; (* 5320: sqxtn2 v19.8h, v23.4s *)
  Narrow false false 2 20 24; (* 5321: sqxtn v20.4h, v24.4s *)
  Narrow false true 2 20 25; (* 5322: sqxtn2 v20.8h, v25.4s *)
  Narrow false false 2 21 26; (* 5323: sqxtn v21.4h, v26.4s *)
  Narrow false true 2 21 27; (* 5324: sqxtn2 v21.8h, v27.4s *)
  Narrow false false 2 22 28; (* 5325: sqxtn v22.4h, v28.4s *)
  Narrow false true 2 22 29; (* 5326: sqxtn2 v22.8h, v29.4s *)
  Narrow false false 2 23 30; (* 5327: sqxtn v23.4h, v30.4s *)
  Narrow false true 2 23 31; (* 5328: sqxtn2 v23.8h, v31.4s *)
  Movi 24 0; (* 5333: movi v24.4s, #0 *)
  Movi 25 0; (* 5334: movi v25.4s, #0 *)
  Movi 26 0; (* 5335: movi v26.4s, #0 *)
  Movi 27 0; (* 5336: movi v27.4s, #0 *)
  Movi 28 0; (* 5337: movi v28.4s, #0 *)
  Movi 29 0; (* 5338: movi v29.4s, #0 *)
  Movi 30 0; (* 5339: movi v30.4s, #0 *)
  Movi 31 0; (* 5340: movi v31.4s, #0 *)
  Ldrs 2 2 params (Imm 120); (* 5343: ldrsh w2, [%[params], #120] *)
  Ldrs 2 3 params (Imm 124); (* 5344: ldrsh w3, [%[params], #124] *)
  Dup 2 8 14 2; (* 5345: dup v14.8h, w2 *)
  Dup 2 8 15 3; (* 5346: dup v15.8h, w3 *)
  V2 (Smax 2) 16 16 14; (* 5349: smax v16.8h, v16.8h, v14.8h *)
  V2 (Smax 2) 17 17 14; (* 5350: smax v17.8h, v17.8h, v14.8h *)
  V2 (Smax 2) 18 18 14; (* 5351: smax v18.8h, v18.8h, v14.8h *)
  V2 (Smax 2) 19 19 14; (* 5352: smax v19.8h, v19.8h, v14.8h *)
  V2 (Smax 2) 20 20 14; (* 5353: smax v20.8h, v20.8h, v14.8h *)
  V2 (Smax 2) 21 21 14; (* 5354: smax v21.8h, v21.8h, v14.8h *)
  V2 (Smax 2) 22 22 14; (* 5355: smax v22.8h, v22.8h, v14.8h *)
  V2 (Smax 2) 23 23 14; (* 5356: smax v23.8h, v23.8h, v14.8h *)
  V2 (Smin 2) 16 16 15; (* 5358: smin v16.8h, v16.8h, v15.8h *)
  V2 (Smin 2) 17 17 15; (* 5359: smin v17.8h, v17.8h, v15.8h *)
  V2 (Smin 2) 18 18 15; (* 5360: smin v18.8h, v18.8h, v15.8h *)
  V2 (Smin 2) 19 19 15; (* 5361: smin v19.8h, v19.8h, v15.8h *)
  V2 (Smin 2) 20 20 15; (* 5362: smin v20.8h, v20.8h, v15.8h *)
  V2 (Smin 2) 21 21 15; (* 5363: smin v21.8h, v21.8h, v15.8h *)
  V2 (Smin 2) 22 22 15; (* 5364: smin v22.8h, v22.8h, v15.8h *)
  V2 (Smin 2) 23 23 15; (* 5365: smin v23.8h, v23.8h, v15.8h *)
  Alu ASub false W 1 dst_rows (Reg row); (* 5372: sub w1, %w[dst_rows], %w[row] *)
  Alu ASub false W 2 dst_cols (Reg col); (* 5373: sub w2, %w[dst_cols], %w[col] *)
  Mov W 3 (Imm 8); (* 5374: mov w3, #8 *)
  Cmp W 1 (Imm 8); (* 5375: cmp w1, #8 *)
  Csel W 1 1 3 LE; (* 5377: csel w1, w1, w3, le *)
  Cmp W 2 (Imm 8); (* 5378: cmp w2, #8 *)
  Csel W 2 2 3 LE; (* 5380: csel w2, w2, w3, le *)
  Cmp W 1 (Reg 3); (* 5383: cmp w1, w3 *)
  Ccmp W 2 (Reg 3) EQ; (* 5384: ccmp w2, w3, 0, eq *)
  B EQ (Fwd 230); (* 5386: beq 230f *)
  Mov X 3 (Reg dst_tmp_buf); (* 5389: mov x3, %[dst_tmp_buf] *)
  Mov X 4 (Imm 16); (* 5390: mov x4, #16 *)
  B Always (Fwd 231); (* 5391: b 231f *)
  Label 230; (* 5392: 230: *)
  Mov X 3 (Reg dst_ptr); (* 5395: mov x3, %[dst_ptr] *)
  Mov X 4 (Reg 11); (* 5396: mov x4, x11 *)
  Label 231; (* 5397: 231: *)
  Nop; (* 5401: prfm pstl1strm, [x3] *)
  St1 16 16 3 (Reg 4); (* 5402: st1 {v16.8h}, [x3], x4 *)
  Movi 16 0; (* 5403: movi v16.4s, #0 *)
  Nop; (* 5404: prfm pstl1strm, [x3] *)
  St1 16 17 3 (Reg 4); (* 5405: st1 {v17.8h}, [x3], x4 *)
  Movi 17 0; (* 5406: movi v17.4s, #0 *)
  Nop; (* 5407: prfm pstl1strm, [x3] *)
  St1 16 18 3 (Reg 4); (* 5408: st1 {v18.8h}, [x3], x4 *)
  Movi 18 0; (* 5409: movi v18.4s, #0 *)
  Nop; (* 5410: prfm pstl1strm, [x3] *)
  St1 16 19 3 (Reg 4); (* 5411: st1 {v19.8h}, [x3], x4 *)
  Movi 19 0; (* 5412: movi v19.4s, #0 *)
  Nop; (* 5413: prfm pstl1strm, [x3] *)
  St1 16 20 3 (Reg 4); (* 5414: st1 {v20.8h}, [x3], x4 *)
  Movi 20 0; (* 5415: movi v20.4s, #0 *)
  Nop; (* 5416: prfm pstl1strm, [x3] *)
  St1 16 21 3 (Reg 4); (* 5417: st1 {v21.8h}, [x3], x4 *)
  Movi 21 0; (* 5418: movi v21.4s, #0 *)
  Nop; (* 5419: prfm pstl1strm, [x3] *)
  St1 16 22 3 (Reg 4); (* 5420: st1 {v22.8h}, [x3], x4 *)
  Movi 22 0; (* 5421: movi v22.4s, #0 *)
  Nop; (* 5422: prfm pstl1strm, [x3] *)
  St1 16 23 3 (Reg 4); (* 5423: st1 {v23.8h}, [x3], x4 *)
  Movi 23 0; (* 5424: movi v23.4s, #0 *)
  Inst 0x4f82e010; (* 5428: .inst 0x4f82e010  // sdot v16.4s, v0.16b, v2.4b[0] *)
  Inst 0x4fa2e012; (* 5429: .inst 0x4fa2e012  // sdot v18.4s, v0.16b, v2.4b[1] *)
  Inst 0x4f82e814; (* 5430: .inst 0x4f82e814  // sdot v20.4s, v0.16b, v2.4b[2] *)
  Inst 0x4fa2e816; (* 5431: .inst 0x4fa2e816  // sdot v22.4s, v0.16b, v2.4b[3] *)
  B EQ (Fwd 241); (* 5435: beq 241f *)
  Mov X 3 (Reg dst_tmp_buf); (* 5439: mov x3, %[dst_tmp_buf] *)
  Mov X 4 (Reg dst_ptr); (* 5440: mov x4, %[dst_ptr] *)
  Mov W 6 (Imm 0); (* 5441: mov w6, #0 *)
  Label 250; (* 5442: 250: *)
  Nop; (* 5443: prfm pstl1strm, [x4] *)
  Mov W 5 (Imm 0); (* 5444: mov w5, #0 *)
  Label 251; (* 5445: 251: *)
  Ldrs 2 7 3 (Lsl 5 1); (* 5446: ldrsh w7, [x3, x5, lsl #1] *)
  Str 2 7 4 (Lsl 5 1); (* 5447: strh w7, [x4, x5, lsl #1] *)
  Alu AAdd false W 5 5 (Imm 1); (* 5448: add w5, w5, #1 *)
  Cmp W 5 (Reg 1); (* 5449: cmp w5, w1 *)
  B LT (Back 251); (* 5450: blt 251b *)
  Alu AAdd false W 6 6 (Imm 1); (* 5451: add w6, w6, #1 *)
  Alu AAdd false X 3 3 (Imm 16); (* 5452: add x3, x3, #16 *)
  Alu AAdd false X 4 4 (Reg 11); (* 5453: add x4, x4, x11 *)
  Cmp W 6 (Reg 2); (* 5454: cmp w6, w2 *)
  B LT (Back 250); (* 5455: blt 250b *)
  Label 241; (* 5456: 241: *)
  Alu AAdd false X dst_ptr dst_ptr (Imm 16); (* 5457: add %[dst_ptr], %[dst_ptr], #16 *)
  B Always (Fwd 99); (* 5461: b 99f *)
  Label 94; (* 5463: 94: *)
  Alu ASub false W 1 dst_rows (Reg row); (* 5473: sub w1, %w[dst_rows], %w[row] *)
  Alu ASub false W 2 dst_cols (Reg col); (* 5474: sub w2, %w[dst_cols], %w[col] *)
  Mov W 3 (Imm 8); (* 5475: mov w3, #8 *)
  Cmp W 1 (Imm 8); (* 5476: cmp w1, #8 *)
  Csel W 1 1 3 LE; (* 5478: csel w1, w1, w3, le *)
  Cmp W 2 (Imm 8); (* 5479: cmp w2, #8 *)
  Csel W 2 2 3 LE; (* 5481: csel w2, w2, w3, le *)
  Cmp W 1 (Reg 3); (* 5484: cmp w1, w3 *)
  Ccmp W 2 (Reg 3) EQ; (* 5485: ccmp w2, w3, 0, eq *)
  B EQ (Fwd 330); (* 5487: beq 330f *)
  Mov X 3 (Reg dst_tmp_buf); (* 5490: mov x3, %[dst_tmp_buf] *)
  St1 16 16 3 (Imm 16); (* 5491: st1 {v16.4s}, [x3], #16 *)
  Movi 16 0; (* 5492: movi v16.4s, #0 *)
  St1 16 17 3 (Imm 16); (* 5493: st1 {v17.4s}, [x3], #16 *)
  Movi 17 0; (* 5494: movi v17.4s, #0 *)
  St1 16 18 3 (Imm 16); (* 5495: st1 {v18.4s}, [x3], #16 *)
  Movi 18 0; (* 5496: movi v18.4s, #0 *)
  St1 16 19 3 (Imm 16); (* 5497: st1 {v19.4s}, [x3], #16 *)
  Movi 19 0; (* 5498: movi v19.4s, #0 *)
  St1 16 20 3 (Imm 16); (* 5499: st1 {v20.4s}, [x3], #16 *)
  Movi 20 0; (* 5500: movi v20.4s, #0 *)
  St1 16 21 3 (Imm 16); (* 5501: st1 {v21.4s}, [x3], #16 *)
  Movi 21 0; (* 5502: movi v21.4s, #0 *)
  St1 16 22 3 (Imm 16); (* 5503: st1 {v22.4s}, [x3], #16 *)
  Movi 22 0; (* 5504: movi v22.4s, #0 *)
  St1 16 23 3 (Imm 16); (* 5505: st1 {v23.4s}, [x3], #16 *)
  Movi 23 0; (* 5506: movi v23.4s, #0 *)
  St1 16 24 3 (Imm 16); (* 5507: st1 {v24.4s}, [x3], #16 *)
  Movi 24 0; (* 5508: movi v24.4s, #0 *)
  St1 16 25 3 (Imm 16); (* 5509: st1 {v25.4s}, [x3], #16 *)
  Movi 25 0; (* 5510: movi v25.4s, #0 *)
  St1 16 26 3 (Imm 16); (* 5511: st1 {v26.4s}, [x3], #16 *)
  Movi 26 0; (* 5512: movi v26.4s, #0 *)
  St1 16 27 3 (Imm 16); (* 5513: st1 {v27.4s}, [x3], #16 *)
  Movi 27 0; (* 5514: movi v27.4s, #0 *)
  St1 16 28 3 (Imm 16); (* 5515: st1 {v28.4s}, [x3], #16 *)
  Movi 28 0; (* 5516: movi v28.4s, #0 *)
  St1 16 29 3 (Imm 16); (* 5517: st1 {v29.4s}, [x3], #16 *)
  Movi 29 0; (* 5518: movi v29.4s, #0 *)
  St1 16 30 3 (Imm 16); (* 5519: st1 {v30.4s}, [x3], #16 *)
  Movi 30 0; (* 5520: movi v30.4s, #0 *)
  St1 16 31 3 (Imm 16); (* 5521: st1 {v31.4s}, [x3], #16 *)
  Movi 31 0; (* 5522: movi v31.4s, #0 *)
  B Always (Fwd 331); (* 5524: b 331f *)
  Label 330; (* 5526: 330: *)
  Mov X 4 (Reg dst_ptr); (* 5528: mov x4, %[dst_ptr] *)
  Nop; (* 5529: prfm pstl1strm, [x4] *)
  Mov X 3 (Reg 4); (* 5530: mov x3, x4 *)
  St1Two 16 3 (Imm 32); (* 5531: st1 {v16.4s, v17.4s}, [x3], #32 *)
  Movi 16 0; (* 5532: movi v16.4s, #0 *)
  Movi 17 0; (* 5533: movi v17.4s, #0 *)
  Alu AAdd false X 4 4 (Reg 11); (* 5534: add x4, x4, x11 *)
  Nop; (* 5535: prfm pstl1strm, [x4] *)
  Mov X 3 (Reg 4); (* 5536: mov x3, x4 *)
  St1Two 18 3 (Imm 32); (* 5537: st1 {v18.4s, v19.4s}, [x3], #32 *)
  Movi 18 0; (* 5538: movi v18.4s, #0 *)
  Movi 19 0; (* 5539: movi v19.4s, #0 *)
  Alu AAdd false X 4 4 (Reg 11); (* 5540: add x4, x4, x11 *)
  Nop; (* 5541: prfm pstl1strm, [x4] *)
  Mov X 3 (Reg 4); (* 5542: mov x3, x4 *)
  St1Two 20 3 (Imm 32); (* 5543: st1 {v20.4s, v21.4s}, [x3], #32 *)
  Movi 20 0; (* 5544: movi v20.4s, #0 *)
  Movi 21 0; (* 5545: movi v21.4s, #0 *)
  Alu AAdd false X 4 4 (Reg 11); (* 5546: add x4, x4, x11 *)
  Nop; (* 5547: prfm pstl1strm, [x4] *)
  Mov X 3 (Reg 4); (* 5548: mov x3, x4 *)
  St1Two 22 3 (Imm 32); (* 5549: st1 {v22.4s, v23.4s}, [x3], #32 *)
  Movi 22 0; (* 5550: movi v22.4s, #0 *)
  Movi 23 0; (* 5551: movi v23.4s, #0 *)
  Alu AAdd false X 4 4 (Reg 11); (* 5552: add x4, x4, x11 *)
  Nop; (* 5553: prfm pstl1strm, [x4] *)
  Mov X 3 (Reg 4); (* 5554: mov x3, x4 *)
  St1Two 24 3 (Imm 32); (* 5555: st1 {v24.4s, v25.4s}, [x3], #32 *)
  Movi 24 0; (* 5556: movi v24.4s, #0 *)
  Movi 25 0; (* 5557: movi v25.4s, #0 *)
  Alu AAdd false X 4 4 (Reg 11); (* 5558: add x4, x4, x11 *)
  Nop; (* 5559: prfm pstl1strm, [x4] *)
  Mov X 3 (Reg 4); (* 5560: mov x3, x4 *)
  St1Two 26 3 (Imm 32); (* 5561: st1 {v26.4s, v27.4s}, [x3], #32 *)
  Movi 26 0; (* 5562: movi v26.4s, #0 *)
  Movi 27 0; (* 5563: movi v27.4s, #0 *)
  Alu AAdd false X 4 4 (Reg 11); (* 5564: add x4, x4, x11 *)
  Nop; (* 5565: prfm pstl1strm, [x4] *)
  Mov X 3 (Reg 4); (* 5566: mov x3, x4 *)
  St1Two 28 3 (Imm 32); (* 5567: st1 {v28.4s, v29.4s}, [x3], #32 *)
  Movi 28 0; (* 5568: movi v28.4s, #0 *)
  Movi 29 0; (* 5569: movi v29.4s, #0 *)
  Alu AAdd false X 4 4 (Reg 11); (* 5570: add x4, x4, x11 *)
  Nop; (* 5571: prfm pstl1strm, [x4] *)
  Mov X 3 (Reg 4); (* 5572: mov x3, x4 *)
  St1Two 30 3 (Imm 32); (* 5573: st1 {v30.4s, v31.4s}, [x3], #32 *)
  Movi 30 0; (* 5574: movi v30.4s, #0 *)
  Movi 31 0; (* 5575: movi v31.4s, #0 *)
  Label 331; (* 5577: 331: *)
  Inst 0x4f82e010; (* 5581: .inst 0x4f82e010  // sdot v16.4s, v0.16b, v2.4b[0] *)
  Inst 0x4fa2e012; (* 5582: .inst 0x4fa2e012  // sdot v18.4s, v0.16b, v2.4b[1] *)
  Inst 0x4f82e814; (* 5583: .inst 0x4f82e814  // sdot v20.4s, v0.16b, v2.4b[2] *)
  Inst 0x4fa2e816; (* 5584: .inst 0x4fa2e816  // sdot v22.4s, v0.16b, v2.4b[3] *)
  B EQ (Fwd 341); (* 5588: beq 341f *)
  Mov X 3 (Reg dst_tmp_buf); (* 5593: mov x3, %[dst_tmp_buf] *)
  Mov X 4 (Reg dst_ptr); (* 5594: mov x4, %[dst_ptr] *)
  Mov W 6 (Imm 0); (* 5595: mov w6, #0 *)
  Label 350; (* 5596: 350: *)
  Nop; (* 5597: prfm pstl1strm, [x4] *)
  Mov W 5 (Imm 0); (* 5598: mov w5, #0 *)
  Label 351; (* 5599: 351: *)
  Ldr 4 7 3 (Lsl 5 2); (* 5600: ldr w7, [x3, x5, lsl #2] *)
  Str 4 7 4 (Lsl 5 2); (* 5601: str w7, [x4, x5, lsl #2] *)
  Alu AAdd false W 5 5 (Imm 1); (* 5602: add w5, w5, #1 *)
  Cmp W 5 (Reg 1); (* 5603: cmp w5, w1 *)
  B LT (Back 351); (* 5604: blt 351b *)
  Alu AAdd false W 6 6 (Imm 1); (* 5605: add w6, w6, #1 *)
  Alu AAdd false X 3 3 (Imm 32); (* 5606: add x3, x3, #32 *)
  Alu AAdd false X 4 4 (Reg 11); (* 5607: add x4, x4, x11 *)
  Cmp W 6 (Reg 2); (* 5608: cmp w6, w2 *)
  B LT (Back 350); (* 5609: blt 350b *)
  Label 341; (* 5610: 341: *)
  Alu AAdd false X dst_ptr dst_ptr (Imm 32); (* 5611: add %[dst_ptr], %[dst_ptr], #32 *)
  Label 99; (* 5615: 99: *)
  Ldr 8 5 params (Imm 24); (* 5619: ldr x5, [%[params], #24] *)
  Ldr 4 6 params (Imm 80); (* 5620: ldr w6, [%[params], #80] *)
  Ldr 4 7 params (Imm 88); (* 5621: ldr w7, [%[params], #88] *)
  Cmp W row (Reg 7); (* 5627: cmp %w[row], w7 *)
  B EQ (Fwd 20); (* 5628: beq 20f *)
  Alu AAdd false W row row (Imm 8); (* 5630: add %w[row], %w[row], #8 *)
  B Always (Fwd 21); (* 5631: b 21f *)
  Label 20; (* 5632: 20: *)
  Mov W row (Reg 6); (* 5634: mov %w[row], w6 *)
  Alu AAdd false W col col (Imm 8); (* 5635: add %w[col], %w[col], #8 *)
  Alu AAdd false X dst_col_ptr dst_col_ptr (Lsl 11 3); (* 5636: add %[dst_col_ptr], %[dst_col_ptr], x11, lsl #3 *)
  Mov X dst_ptr (Reg dst_col_ptr); (* 5637: mov %[dst_ptr], %[dst_col_ptr] *)
  Label 21; (* 5638: 21: *)
  Cmp W col (Reg 8); (* 5641: cmp %w[col], w8 *)
  Mov W 1 (Imm 4); (* 5646: mov w1, #4 *)
  B LE (Back 1) (* 5648: ble 1b *)
].

(** kernel_arm64.cc:5723-6340, Kernel8bitNeonDotprod1Col. *)
Definition kernel8_dotprod_1col : list instr := [
  Ldr 8 5 params (Imm 24); (* 5723: ldr x5, [%[params], #24] *)
  Ldr 4 6 params (Imm 80); (* 5724: ldr w6, [%[params], #80] *)
  Ldr 4 7 params (Imm 88); (* 5725: ldr w7, [%[params], #88] *)
  Ldr 4 8 params (Imm 92); (* 5726: ldr w8, [%[params], #92] *)
  Ldr 4 9 params (Imm 104); (* 5727: ldr w9, [%[params], #104] *)
  Ldr 4 10 params (Imm 108); (* 5728: ldr w10, [%[params], #108] *)
  Ldr 4 11 params (Imm 112); (* 5729: ldr w11, [%[params], #112] *)
  Ldr 4 12 params (Imm 116); (* 5730: ldr w12, [%[params], #116] *)
  Ld1 16 0 lhs_ptr (Imm 16); (* 5733: ld1 {v0.16b}, [%[lhs_ptr]], #16 *)
  Ld1 16 1 lhs_ptr (Imm 16); (* 5734: ld1 {v1.16b}, [%[lhs_ptr]], #16 *)
  Ld1 8 2 rhs_ptr (Imm 0); (* 5735: ld1 {v2.8b}, [%[rhs_ptr]] *)
  Alu AAdd false X rhs_ptr rhs_ptr (Imm 32); (* 5736: add %[rhs_ptr], %[rhs_ptr], #32 *)
  Movi 16 0; (* 5739: movi v16.4s, #0 *)
  Movi 17 0; (* 5740: movi v17.4s, #0 *)
  Mov W 1 (Imm 4); (* 5745: mov w1, #4 *)
  Inst 0x4f82e010; (* 5749: .inst 0x4f82e010  // sdot v16.4s, v0.16b, v2.4b[0] *)
  Label 1; (* 5753: 1: *)
  Cmp W 1 (Reg 12); (* 5760: cmp w1, w12 *)
  B EQ (Fwd 79); (* 5761: beq 79f *)
  Label 2; (* 5763: 2: *)
  Alu AAdd false W 1 1 (Imm 4); (* 5768: add w1, w1, #4 *)
  Ld1 16 0 lhs_ptr (Imm 16); (* 5769: ld1 {v0.16b}, [%[lhs_ptr]], #16 *)
  Inst 0x4f82e031; (* 5770: .inst 0x4f82e031  // sdot v17.4s, v1.16b, v2.4b[0] *)
  Cmp W 1 (Reg 12); (* 5772: cmp w1, w12 *)
  Ld1 8 2 rhs_ptr (Imm 0); (* 5773: ld1 {v2.8b}, [%[rhs_ptr]] *)
  Alu AAdd false X rhs_ptr rhs_ptr (Imm 32); (* 5774: add %[rhs_ptr], %[rhs_ptr], #32 *)
  Inst 0x4f82e010; (* 5775: .inst 0x4f82e010  // sdot v16.4s, v0.16b, v2.4b[0] *)
  Ld1 16 1 lhs_ptr (Imm 16); (* 5776: ld1 {v1.16b}, [%[lhs_ptr]], #16 *)
  B LT (Back 2); (* 5778: blt 2b *)
  Label 79; (* 5780: 79: *)
  Inst 0x4f82e031; (* 5785: .inst 0x4f82e031  // sdot v17.4s, v1.16b, v2.4b[0] *)
  Cmp W row (Reg 7); (* 5803: cmp %w[row], w7 *)
  B GE (Fwd 4); (* 5804: bge 4f *)
  Alu AAdd false X lhs_col_ptr lhs_col_ptr (Lsl 9 3); (* 5806: add %[lhs_col_ptr], %[lhs_col_ptr], x9, lsl #3 *)
  B Always (Fwd 5); (* 5807: b 5f *)
  Label 4; (* 5808: 4: *)
  Mov X lhs_col_ptr (Reg 5); (* 5809: mov %[lhs_col_ptr], x5 *)
  Cmp W col (Reg 8); (* 5817: cmp %w[col], w8 *)
  B GE (Fwd 5); (* 5818: bge 5f *)
  Alu AAdd false X rhs_col_ptr rhs_col_ptr (Lsl 10 3); (* 5820: add %[rhs_col_ptr], %[rhs_col_ptr], x10, lsl #3 *)
  Label 5; (* 5821: 5: *)
  Mov X lhs_ptr (Reg lhs_col_ptr); (* 5825: mov %[lhs_ptr], %[lhs_col_ptr] *)
  Mov X rhs_ptr (Reg rhs_col_ptr); (* 5826: mov %[rhs_ptr], %[rhs_col_ptr] *)
  Movi 8 255; (* 5829: mvni v8.4s, #0 *)
  Ldr 4 4 params (Imm 72); (* 5830: ldr w4, [%[params], #72] *)
  Ldr 4 3 params (Imm 76); (* 5831: ldr w3, [%[params], #76] *)
  Ins 2 13 4 4; (* 5832: ins v13.h[4], w4 *)
  Ldr 8 4 params (Imm 32); (* 5833: ldr x4, [%[params], #32] *)
  Ldr 1 6 params (Imm 128); (* 5834: ldrb w6, [%[params], #128] *)
  Dup 4 4 9 3; (* 5835: dup v9.4s, w3 *)
  Alu AAdd false X 5 4 (Lsl row 2); (* 5836: add x5, x4, %x[row], lsl #2 *)
  Tst W 6 (Imm 8); (* 5837: tst w6, #0x8 *)
  Csel X 4 4 5 EQ; (* 5838: csel x4, x4, x5, eq *)
  Ldr 8 1 params (Imm 0); (* 5840: ldr x1, [%[params], #0] *)
  Alu AAdd false X 5 1 (Lsl row 2); (* 5841: add x5, x1, %x[row], lsl #2 *)
  Tst W 6 (Imm 1); (* 5843: tst w6, #0x1 *)
  Csel X 1 1 5 EQ; (* 5844: csel x1, x1, x5, eq *)
  Ld1 16 14 1 (Imm 16); (* 5847: ld1 {v14.4s}, [x1], #16 *)
  Ld1 16 15 1 (Imm 0); (* 5848: ld1 {v15.4s}, [x1] *)
  Ld1 16 0 lhs_ptr (Imm 16); (* 5854: ld1 {v0.16b}, [%[lhs_ptr]], #16 *)
  Ld1 16 1 lhs_ptr (Imm 16); (* 5855: ld1 {v1.16b}, [%[lhs_ptr]], #16 *)
  Ld1 8 2 rhs_ptr (Imm 0); (* 5856: ld1 {v2.8b}, [%[rhs_ptr]] *)
  Alu AAdd false X rhs_ptr rhs_ptr (Imm 32); (* 5857: add %[rhs_ptr], %[rhs_ptr], #32 *)
  V2 (VAdd 4) 14 14 9; (* 5861: add v14.4s, v14.4s, v9.4s *)
  V2 (VAdd 4) 15 15 9; (* 5862: add v15.4s, v15.4s, v9.4s *)
  V2 (VAdd 4) 16 16 14; (* 5866: add v16.4s, v16.4s, v14.4s *)
  V2 (VAdd 4) 17 17 15; (* 5867: add v17.4s, v17.4s, v15.4s *)
  Tst W 6 (Imm 4); (* 5869: tst w6, #0x4 *)
  B EQ (Fwd 401); (* 5870: beq 401f *)
  Ldr 8 3 params (Imm 16); (* 5871: ldr x3, [%[params], #16] *)
  Alu AAdd false X 3 3 (Lsl col 2); (* 5872: add x3, x3, %x[col], lsl #2 *)
  Ld1 16 14 3 (Imm 16); (* 5873: ld1 {v14.4s}, [x3], #16 *)
  Ld1 16 15 3 (Imm 0); (* 5874: ld1 {v15.4s}, [x3] *)
  Ldr 4 5 params (Imm 64); (* 5875: ldr w5, [%[params], #64] *)
  Dup 4 4 10 5; (* 5876: dup v10.4s, w5 *)
  MlsLane 16 10 14 0; (* 5879: mls v16.4s, v10.4s, v14.s[0] *)
  MlsLane 17 10 14 0; (* 5880: mls v17.4s, v10.4s, v14.s[0] *)
  Label 401; (* 5881: 401: *)
  Tst W 6 (Imm 2); (* 5883: tst w6, #0x2 *)
  B EQ (Fwd 402); (* 5884: beq 402f *)
  Ldr 8 2 params (Imm 8); (* 5885: ldr x2, [%[params], #8] *)
  Alu AAdd false X 2 2 (Lsl row 2); (* 5886: add x2, x2, %x[row], lsl #2 *)
  Ldr 4 5 params (Imm 68); (* 5887: ldr w5, [%[params], #68] *)
  Ld1 16 11 2 (Imm 16); (* 5889: ld1 {v11.4s}, [x2], #16 *)
  Ld1 16 12 2 (Imm 0); (* 5890: ld1 {v12.4s}, [x2] *)
  Ins 4 13 1 5; (* 5891: ins v13.s[1], w5 *)
  MulLane 11 11 13 1; (* 5893: mul v11.4s, v11.4s, v13.s[1] *)
  MulLane 12 12 13 1; (* 5894: mul v12.4s, v12.4s, v13.s[1] *)
  V2 (VSub 4) 16 16 11; (* 5897: sub v16.4s, v16.4s, v11.4s *)
  V2 (VSub 4) 17 17 12; (* 5898: sub v17.4s, v17.4s, v12.4s *)
  Cmp W dst_type_id (Imm 4); (* 5900: cmp %w[dst_type_id], #4 *)
  B EQ (Fwd 94); (* 5901: beq 94f *)
  Label 402; (* 5903: 402: *)
  Ldr 8 1 params (Imm 40); (* 5913: ldr x1, [%[params], #40] *)
  Tst W 6 (Imm 8); (* 5914: tst w6, #0x8 *)
  Alu AAdd false X 5 1 (Lsl row 2); (* 5915: add x5, x1, %x[row], lsl #2 *)
  Csel X 1 1 5 EQ; (* 5916: csel x1, x1, x5, eq *)
  LdrQ 9 1 (Imm 0); (* 5918: ldr q9, [x1] *)
  LdrQ 10 1 (Imm 16); (* 5919: ldr q10, [x1, #16] *)
  V2 (Smin 4) 11 8 9; (* 5921: smin v11.4s, v8.4s, v9.4s *)
  V2 (Smin 4) 12 8 10; (* 5922: smin v12.4s, v8.4s, v10.4s *)
  V2 (VSub 4) 9 9 11; (* 5923: sub v9.4s, v9.4s, v11.4s *)
  V2 (VSub 4) 10 10 12; (* 5924: sub v10.4s, v10.4s, v12.4s *)
  V2 (Sshl 4) 16 16 9; (* 5927: sshl v16.4s, v16.4s, v9.4s *)
  V2 (Sshl 4) 17 17 10; (* 5928: sshl v17.4s, v17.4s, v10.4s *)
  Label 403; (* 5929: 403: *)
  LdrQ 14 4 (Imm 0); (* 5931: ldr q14, [x4] *)
  LdrQ 15 4 (Imm 16); (* 5932: ldr q15, [x4, #16] *)
  V2 (Sqdmulh 4) 16 16 14; (* 5935: sqdmulh v16.4s, v16.4s, v14.4s *)
  V2 (Sqdmulh 4) 17 17 15; (* 5936: sqdmulh v17.4s, v17.4s, v15.4s *)
  V2 (Srshl 4) 16 16 11; (* 5939: srshl v16.4s, v16.4s, v11.4s *)
  V2 (Srshl 4) 17 17 12; (* 5940: srshl v17.4s, v17.4s, v12.4s *)
  Cmp W dst_type_id (Imm 3); (* 5942: cmp %w[dst_type_id], #3 *)
  B EQ (Fwd 93); (* 5943: beq 93f *)
  Cmp W dst_type_id (Imm 2); (* 5944: cmp %w[dst_type_id], #2 *)
  B EQ (Fwd 92); (* 5945: beq 92f *)
  Label 91; (* 5947: 91: *)
  Narrow false false 2 16 16; (* 5950: sqxtn v16.4h, v16.4s *)
  Narrow false true 2 16 17; (* 5951: sqxtn2 v16.8h, v17.4s *)
  DupLane 2 8 14 13 4; (* 5955: dup v14.8h, v13.h[4] *)
  V2 (Sqadd 2) 16 16 14; (* 5956: sqadd v16.8h, v16.8h, v14.8h *)
  Narrow true false 1 16 16; (* 5960: sqxtun v16.8b, v16.8h *)
  Ldr 1 2 params (Imm 120); (* 5963: ldrb w2, [%[params], #120] *)
  Ldr 1 3 params (Imm 124); (* 5964: ldrb w3, [%[params], #124] *)
  Dup 1 16 14 2; (* 5965: dup v14.16b, w2 *)
  Dup 1 16 15 3; (* 5966: dup v15.16b, w3 *)
  V2 (Umax 1) 16 16 14; (* 5969: umax v16.16b, v16.16b, v14.16b *)
  V2 (Umin 1) 16 16 15; (* 5972: umin v16.16b, v16.16b, v15.16b *)
  DupLane 8 1 20 16 1; (* 5977: dup d20, v16.d[1] *)
  Alu ASub false W 1 dst_rows (Reg row); (* 5984: sub w1, %w[dst_rows], %w[row] *)
  Alu ASub false W 2 dst_cols (Reg col); (* 5985: sub w2, %w[dst_cols], %w[col] *)
  Mov W 3 (Imm 8); (* 5986: mov w3, #8 *)
  Cmp W 1 (Imm 8); (* 5987: cmp w1, #8 *)
  Csel W 1 1 3 LE; (* 5989: csel w1, w1, w3, le *)
  Cmp W 2 (Imm 8); (* 5990: cmp w2, #8 *)
  Cmp W 1 (Reg 3); (* 5993: cmp w1, w3 *)
  B EQ (Fwd 30); (* 5995: beq 30f *)
  Mov X 3 (Reg dst_tmp_buf); (* 5998: mov x3, %[dst_tmp_buf] *)
  Mov X 4 (Imm 8); (* 5999: mov x4, #8 *)
  B Always (Fwd 31); (* 6000: b 31f *)
  Label 30; (* 6001: 30: *)
  Mov X 3 (Reg dst_ptr); (* 6004: mov x3, %[dst_ptr] *)
  Mov X 4 (Reg 11); (* 6005: mov x4, x11 *)
  Label 31; (* 6006: 31: *)
  Nop; (* 6009: prfm pstl1strm, [x4] *)
  St1 8 16 3 (Imm 0); (* 6010: st1 {v16.8b}, [x3] *)
  Movi 16 0; (* 6011: movi v16.4s, #0 *)
  Movi 17 0; (* 6012: movi v17.4s, #0 *)
  Inst 0x4f82e010; (* 6016: .inst 0x4f82e010  // sdot v16.4s, v0.16b, v2.4b[0] *)
  B EQ (Fwd 41); (* 6020: beq 41f *)
  Mov X 3 (Reg dst_tmp_buf); (* 6024: mov x3, %[dst_tmp_buf] *)
  Mov X 4 (Reg dst_ptr); (* 6025: mov x4, %[dst_ptr] *)
  Mov W 6 (Imm 0); (* 6026: mov w6, #0 *)
  Label 50; (* 6027: 50: *)
  Nop; (* 6028: prfm pstl1strm, [x4] *)
  Mov W 5 (Imm 0); (* 6029: mov w5, #0 *)
  Label 51; (* 6030: 51: *)
  Ldr 1 7 3 (Uxtw 5); (* 6031: ldrb w7, [x3, w5, uxtw] *)
  Str 1 7 4 (Uxtw 5); (* 6032: strb w7, [x4, w5, uxtw] *)
  Alu AAdd false W 5 5 (Imm 1); (* 6033: add w5, w5, #1 *)
  Cmp W 5 (Reg 1); (* 6034: cmp w5, w1 *)
  B LT (Back 51); (* 6035: blt 51b *)
  Label 41; (* 6036: 41: *)
  Alu AAdd false X dst_ptr dst_ptr (Imm 8); (* 6037: add %[dst_ptr], %[dst_ptr], #8 *)
  B Always (Fwd 99); (* 6041: b 99f *)
  Label 92; (* 6043: 92: *)
  Narrow false false 2 16 16; (* 6046: sqxtn v16.4h, v16.4s *)
  Narrow false true 2 16 17; (* 6047: sqxtn2 v16.8h, v17.4s *)
  DupLane 2 8 14 13 4; (* 6051: dup v14.8h, v13.h[4] *)
  V2 (Sqadd 2) 16 16 14; (* 6052: sqadd v16.8h, v16.8h, v14.8h *)
  Narrow false false 1 16 16; (* 6055: sqxtn v16.8b, v16.8h *)
  Ldr 1 2 params (Imm 120); (* 6058: ldrb w2, [%[params], #120] *)
  Ldr 1 3 params (Imm 124); (* 6059: ldrb w3, [%[params], #124] *)
  Dup 1 16 14 2; (* 6060: dup v14.16b, w2 *)
  Dup 1 16 15 3; (* 6061: dup v15.16b, w3 *)
  V2 (Smax 1) 16 16 14; (* 6064: smax v16.16b, v16.16b, v14.16b *)
  V2 (Smin 1) 16 16 15; (* 6067: smin v16.16b, v16.16b, v15.16b *)
  DupLane 8 1 20 16 1; (* 6072: dup d20, v16.d[1] *)
  Alu ASub false W 1 dst_rows (Reg row); (* 6079: sub w1, %w[dst_rows], %w[row] *)
  Alu ASub false W 2 dst_cols (Reg col); (* 6080: sub w2, %w[dst_cols], %w[col] *)
  Mov W 3 (Imm 8); (* 6081: mov w3, #8 *)
  Cmp W 1 (Imm 8); (* 6082: cmp w1, #8 *)
  Csel W 1 1 3 LE; (* 6084: csel w1, w1, w3, le *)
  Cmp W 2 (Imm 8); (* 6085: cmp w2, #8 *)
  Cmp W 1 (Reg 3); (* 6088: cmp w1, w3 *)
  B EQ (Fwd 130); (* 6090: beq 130f *)
  Mov X 3 (Reg dst_tmp_buf); (* 6093: mov x3, %[dst_tmp_buf] *)
  Mov X 4 (Imm 8); (* 6094: mov x4, #8 *)
  B Always (Fwd 131); (* 6095: b 131f *)
  Label 130; (* 6096: 130: *)
  Mov X 3 (Reg dst_ptr); (* 6099: mov x3, %[dst_ptr] *)
  Mov X 4 (Reg 11); (* 6100: mov x4, x11 *)
  Label 131; (* 6101: 131: *)
  Nop; (* 6104: prfm pstl1strm, [x4] *)
  St1 8 16 3 (Imm 0); (* 6105: st1 {v16.8b}, [x3] *)
  Movi 16 0; (* 6106: movi v16.4s, #0 *)
  Movi 17 0; (* 6107: movi v17.4s, #0 *)
  Inst 0x4f82e010; (* 6111: .inst 0x4f82e010  // sdot v16.4s, v0.16b, v2.4b[0] *)
  B EQ (Fwd 141); (* 6115: beq 141f *)
  Mov X 3 (Reg dst_tmp_buf); (* 6119: mov x3, %[dst_tmp_buf] *)
  Mov X 4 (Reg dst_ptr); (* 6120: mov x4, %[dst_ptr] *)
  Mov W 6 (Imm 0); (* 6121: mov w6, #0 *)
  Label 150; (* 6122: 150: *)
  Nop; (* 6123: prfm pstl1strm, [x4] *)
  Mov W 5 (Imm 0); (* 6124: mov w5, #0 *)
  Label 151; (* 6125: 151: *)
  Ldr 1 7 3 (Uxtw 5); (* 6126: ldrb w7, [x3, w5, uxtw] *)
  Str 1 7 4 (Uxtw 5); (* 6127: strb w7, [x4, w5, uxtw] *)
  Alu AAdd false W 5 5 (Imm 1); (* 6128: add w5, w5, #1 *)
  Cmp W 5 (Reg 1); (* 6129: cmp w5, w1 *)
  B LT (Back 151); (* 6130: blt 151b *)
  Label 141; (* 6131: 141: *)
  Alu AAdd false X dst_ptr dst_ptr (Imm 8); (* 6132: add %[dst_ptr], %[dst_ptr], #8 *)
  B Always (Fwd 99); (* 6136: b 99f *)
  Label 93; (* 6138: 93: *)
  DupLane 2 8 14 13 4; (* 6141: dup v14.8h, v13.h[4] *)
  Saddw 16 16 14; (* 6142: saddw v16.4s, v16.4s, v14.4h *)
  Saddw 17 17 14; (* 6143: saddw v17.4s, v17.4s, v14.4h *)
  Narrow false false 2 16 16; (* 6146: sqxtn v16.4h, v16.4s *)
  Narrow false true 2 16 17; (* 6147: sqxtn2 v16.8h, v17.4s *)
  Ldrs 2 2 params (Imm 120); (* 6150: ldrsh w2, [%[params], #120] *)
  Ldrs 2 3 params (Imm 124); (* 6151: ldrsh w3, [%[params], #124] *)
  Dup 2 8 14 2; (* 6152: dup v14.8h, w2 *)
  Dup 2 8 15 3; (* 6153: dup v15.8h, w3 *)
  V2 (Smax 2) 16 16 14; (* 6156: smax v16.8h, v16.8h, v14.8h *)
  V2 (Smin 2) 16 16 15; (* 6158: smin v16.8h, v16.8h, v15.8h *)
  Alu ASub false W 1 dst_rows (Reg row); (* 6165: sub w1, %w[dst_rows], %w[row] *)
  Alu ASub false W 2 dst_cols (Reg col); (* 6166: sub w2, %w[dst_cols], %w[col] *)
  Mov W 3 (Imm 8); (* 6167: mov w3, #8 *)
  Cmp W 1 (Imm 8); (* 6168: cmp w1, #8 *)
  Csel W 1 1 3 LE; (* 6170: csel w1, w1, w3, le *)
  Cmp W 2 (Imm 8); (* 6171: cmp w2, #8 *)
  Cmp W 1 (Reg 3); (* 6174: cmp w1, w3 *)
  B EQ (Fwd 230); (* 6176: beq 230f *)
  Mov X 3 (Reg dst_tmp_buf); (* 6179: mov x3, %[dst_tmp_buf] *)
  Mov X 4 (Imm 16); (* 6180: mov x4, #16 *)
  B Always (Fwd 231); (* 6181: b 231f *)
  Label 230; (* 6182: 230: *)
  Mov X 3 (Reg dst_ptr); (* 6185: mov x3, %[dst_ptr] *)
  Mov X 4 (Reg 11); (* 6186: mov x4, x11 *)
  Label 231; (* 6187: 231: *)
  Nop; (* 6190: prfm pstl1strm, [x4] *)
  St1 16 16 3 (Imm 0); (* 6191: st1 {v16.8h}, [x3] *)
  Movi 16 0; (* 6192: movi v16.4s, #0 *)
  Movi 17 0; (* 6193: movi v17.4s, #0 *)
  Inst 0x4f82e010; (* 6197: .inst 0x4f82e010  // sdot v16.4s, v0.16b, v2.4b[0] *)
  B EQ (Fwd 241); (* 6201: beq 241f *)
  Mov X 3 (Reg dst_tmp_buf); (* 6205: mov x3, %[dst_tmp_buf] *)
  Mov X 4 (Reg dst_ptr); (* 6206: mov x4, %[dst_ptr] *)
  Mov W 6 (Imm 0); (* 6207: mov w6, #0 *)
  Label 250; (* 6208: 250: *)
  Nop; (* 6209: prfm pstl1strm, [x4] *)
  Mov W 5 (Imm 0); (* 6210: mov w5, #0 *)
  Label 251; (* 6211: 251: *)
  Ldrs 2 7 3 (Lsl 5 1); (* 6212: ldrsh w7, [x3, x5, lsl #1] *)
  Str 2 7 4 (Lsl 5 1); (* 6213: strh w7, [x4, x5, lsl #1] *)
  Alu AAdd false W 5 5 (Imm 1); (* 6214: add w5, w5, #1 *)
  Cmp W 5 (Reg 1); (* 6215: cmp w5, w1 *)
  B LT (Back 251); (* 6216: blt 251b *)
  Label 241; (* 6217: 241: *)
  Alu AAdd false X dst_ptr dst_ptr (Imm 16); (* 6218: add %[dst_ptr], %[dst_ptr], #16 *)
  B Always (Fwd 99); (* 6222: b 99f *)
  Label 94; (* 6224: 94: *)
  Alu ASub false W 1 dst_rows (Reg row); (* 6234: sub w1, %w[dst_rows], %w[row] *)
  Alu ASub false W 2 dst_cols (Reg col); (* 6235: sub w2, %w[dst_cols], %w[col] *)
  Mov W 3 (Imm 8); (* 6236: mov w3, #8 *)
  Cmp W 1 (Imm 8); (* 6237: cmp w1, #8 *)
  Csel W 1 1 3 LE; (* 6239: csel w1, w1, w3, le *)
  Cmp W 2 (Imm 8); (* 6240: cmp w2, #8 *)
  Csel W 2 2 3 LE; (* 6242: csel w2, w2, w3, le *)
  Cmp W 1 (Reg 3); (* 6245: cmp w1, w3 *)
  B EQ (Fwd 330); (* 6247: beq 330f *)
  Mov X 3 (Reg dst_tmp_buf); (* 6250: mov x3, %[dst_tmp_buf] *)
  Mov X 4 (Imm 16); (* 6251: mov x4, #16 *)
  Nop; (* 6255: prfm pstl1strm, [x3] *)
  St1 16 16 3 (Reg 4); (* 6256: st1 {v16.4s}, [x3], x4 *)
  Movi 16 0; (* 6257: movi v16.4s, #0 *)
  Nop; (* 6258: prfm pstl1strm, [x3] *)
  St1 16 17 3 (Reg 4); (* 6259: st1 {v17.4s}, [x3], x4 *)
  Movi 17 0; (* 6260: movi v17.4s, #0 *)
  B Always (Fwd 331); (* 6262: b 331f *)
  Label 330; (* 6264: 330: *)
  Mov X 4 (Reg dst_ptr); (* 6267: mov x4, %[dst_ptr] *)
  Mov X 3 (Reg 4); (* 6268: mov x3, x4 *)
  Nop; (* 6272: prfm pstl1strm, [x3] *)
  St1Two 16 3 (Imm 32); (* 6273: st1 {v16.4s, v17.4s}, [x3], #32 *)
  Movi 16 0; (* 6274: movi v16.4s, #0 *)
  Movi 17 0; (* 6275: movi v17.4s, #0 *)
  Label 331; (* 6277: 331: *)
  Inst 0x4f82e010; (* 6281: .inst 0x4f82e010  // sdot v16.4s, v0.16b, v2.4b[0] *)
  B EQ (Fwd 341); (* 6285: beq 341f *)
  Mov X 3 (Reg dst_tmp_buf); (* 6290: mov x3, %[dst_tmp_buf] *)
  Mov X 4 (Reg dst_ptr); (* 6291: mov x4, %[dst_ptr] *)
  Mov W 6 (Imm 0); (* 6292: mov w6, #0 *)
  Label 350; (* 6293: 350: *)
  Nop; (* 6294: prfm pstl1strm, [x3] *)
  Mov W 5 (Imm 0); (* 6295: mov w5, #0 *)
  Label 351; (* 6296: 351: *)
  Ldr 4 7 3 (Lsl 5 2); (* 6297: ldr w7, [x3, x5, lsl #2] *)
  Str 4 7 4 (Lsl 5 2); (* 6298: str w7, [x4, x5, lsl #2] *)
  Alu AAdd false W 5 5 (Imm 1); (* 6299: add w5, w5, #1 *)
  Cmp W 5 (Reg 1); (* 6300: cmp w5, w1 *)
  B LT (Back 351); (* 6301: blt 351b *)
  Label 341; (* 6302: 341: *)
  Alu AAdd false X dst_ptr dst_ptr (Imm 32); (* 6303: add %[dst_ptr], %[dst_ptr], #32 *)
  Label 99; (* 6307: 99: *)
  Ldr 8 5 params (Imm 24); (* 6311: ldr x5, [%[params], #24] *)
  Ldr 4 6 params (Imm 80); (* 6312: ldr w6, [%[params], #80] *)
  Ldr 4 7 params (Imm 88); (* 6313: ldr w7, [%[params], #88] *)
  Cmp W row (Reg 7); (* 6319: cmp %w[row], w7 *)
  B EQ (Fwd 20); (* 6320: beq 20f *)
  Alu AAdd false W row row (Imm 8); (* 6322: add %w[row], %w[row], #8 *)
  B Always (Fwd 21); (* 6323: b 21f *)
  Label 20; (* 6324: 20: *)
  Mov W row (Reg 6); (* 6326: mov %w[row], w6 *)
  Alu AAdd false W col col (Imm 8); (* 6327: add %w[col], %w[col], #8 *)
  Alu AAdd false X dst_col_ptr dst_col_ptr (Lsl 11 3); (* 6328: add %[dst_col_ptr], %[dst_col_ptr], x11, lsl #3 *)
  Mov X dst_ptr (Reg dst_col_ptr); (* 6329: mov %[dst_ptr], %[dst_col_ptr] *)
  Label 21; (* 6330: 21: *)
  Cmp W col (Reg 8); (* 6333: cmp %w[col], w8 *)
  Mov W 1 (Imm 4); (* 6338: mov w1, #4 *)
  B LE (Back 1) (* 6340: ble 1b *)
].

(** kernel_arm64.cc:6414-7618, Kernel8bitNeonDotprodA55ish. *)
Definition kernel8_dotprod_a55 : list instr := [
  Ldr 8 5 params (Imm 24); (* 6414: ldr x5, [%[params], #24] *)
  Movi 16 0; (* 6415: movi v16.4s, #0 *)
  Ldr 4 6 params (Imm 80); (* 6416: ldr w6, [%[params], #80] *)
  Movi 17 0; (* 6417: movi v17.4s, #0 *)
  Ldr 4 7 params (Imm 88); (* 6418: ldr w7, [%[params], #88] *)
  Movi 18 0; (* 6419: movi v18.4s, #0 *)
  Ldr 4 8 params (Imm 92); (* 6420: ldr w8, [%[params], #92] *)
  Movi 19 0; (* 6421: movi v19.4s, #0 *)
  Ldr 4 9 params (Imm 104); (* 6422: ldr w9, [%[params], #104] *)
  Movi 20 0; (* 6423: movi v20.4s, #0 *)
  Ldr 4 10 params (Imm 108); (* 6424: ldr w10, [%[params], #108] *)
  Movi 21 0; (* 6425: movi v21.4s, #0 *)
  Ldr 4 11 params (Imm 112); (* 6426: ldr w11, [%[params], #112] *)
  Movi 22 0; (* 6427: movi v22.4s, #0 *)
  Ldr 4 12 params (Imm 116); (* 6428: ldr w12, [%[params], #116] *)
  Ld1 16 0 lhs_ptr (Imm 16); (* 6431: ld1 {v0.16b}, [%[lhs_ptr]], #16 *)
  Ld1 16 1 lhs_ptr (Imm 16); (* 6432: ld1 {v1.16b}, [%[lhs_ptr]], #16 *)
  Ld1 16 2 rhs_ptr (Imm 16); (* 6433: ld1 {v2.16b}, [%[rhs_ptr]], #16 *)
  Ld1 16 3 rhs_ptr (Imm 16); (* 6434: ld1 {v3.16b}, [%[rhs_ptr]], #16 *)
  Movi 23 0; (* 6437: movi v23.4s, #0 *)
  Movi 24 0; (* 6438: movi v24.4s, #0 *)
  Movi 25 0; (* 6439: movi v25.4s, #0 *)
  Movi 26 0; (* 6440: movi v26.4s, #0 *)
  Movi 27 0; (* 6441: movi v27.4s, #0 *)
  Inst 0x4f82e010; (* 6444: .inst 0x4f82e010  // sdot v16.4s, v0.16b, v2.4b[0] *)
  Movi 28 0; (* 6445: movi v28.4s, #0 *)
  Inst 0x4fa2e012; (* 6446: .inst 0x4fa2e012  // sdot v18.4s, v0.16b, v2.4b[1] *)
  Movi 29 0; (* 6447: movi v29.4s, #0 *)
  Inst 0x4f82e814; (* 6448: .inst 0x4f82e814  // sdot v20.4s, v0.16b, v2.4b[2] *)
  Movi 30 0; (* 6449: movi v30.4s, #0 *)
  Inst 0x4fa2e816; (* 6450: .inst 0x4fa2e816  // sdot v22.4s, v0.16b, v2.4b[3] *)
  Movi 31 0; (* 6451: movi v31.4s, #0 *)
  Label 1; (* 6454: 1: *)
  Alu AAdd false X 5 lhs_ptr (Lsl 12 3); (* 6456: add x5, %[lhs_ptr], x12, lsl #3 *)
  Alu ASub false X 5 5 (Imm 32); (* 6457: sub x5, x5, #32 *)
  Cmp X lhs_ptr (Reg 5); (* 6458: cmp %[lhs_ptr], x5 *)
  B EQ (Fwd 79); (* 6460: beq 79f *)
  Label 2; (* 6463: 2: *)
  Inst 0x4f83e018; (* 6464: .inst 0x4f83e018  // sdot v24.4s, v0.16b, v3.4b[0] *)
  Ldr 8 1 lhs_ptr (Imm 8); (* 6465: ldr x1, [%[lhs_ptr], #8] *)
  Inst 0x4fa3e01a; (* 6466: .inst 0x4fa3e01a  // sdot v26.4s, v0.16b, v3.4b[1] *)
  Ldr 8 3 rhs_ptr (Imm 8); (* 6467: ldr x3, [%[rhs_ptr], #8] *)
  Inst 0x4f83e81c; (* 6468: .inst 0x4f83e81c  // sdot v28.4s, v0.16b, v3.4b[2] *)
  Ldr 8 4 rhs_ptr (Imm 24); (* 6469: ldr x4, [%[rhs_ptr], #24] *)
  Inst 0x4fa3e81e; (* 6470: .inst 0x4fa3e81e  // sdot v30.4s, v0.16b, v3.4b[3] *)
  LdrD 0 lhs_ptr (Imm 0); (* 6471: ldr d0, [%[lhs_ptr], #0] *)
  Inst 0x4f82e031; (* 6472: .inst 0x4f82e031  // sdot v17.4s, v1.16b, v2.4b[0] *)
  Ins 8 0 1 1; (* 6473: ins v0.d[1], x1 *)
  Inst 0x4fa2e033; (* 6474: .inst 0x4fa2e033  // sdot v19.4s, v1.16b, v2.4b[1] *)
  Ldr 8 2 lhs_ptr (Imm 24); (* 6475: ldr x2, [%[lhs_ptr], #24] *)
  Inst 0x4f82e835; (* 6476: .inst 0x4f82e835  // sdot v21.4s, v1.16b, v2.4b[2] *)
  Alu AAdd false X lhs_ptr lhs_ptr (Imm 32); (* 6477: add %[lhs_ptr], %[lhs_ptr], #32 *)
  Inst 0x4fa2e837; (* 6478: .inst 0x4fa2e837  // sdot v23.4s, v1.16b, v2.4b[3] *)
  LdrD 2 rhs_ptr (Imm 0); (* 6479: ldr d2, [%[rhs_ptr], #0] *)
  Inst 0x4f83e039; (* 6480: .inst 0x4f83e039  // sdot v25.4s, v1.16b, v3.4b[0] *)
  Ins 8 2 1 3; (* 6481: ins v2.d[1], x3 *)
  Inst 0x4fa3e03b; (* 6482: .inst 0x4fa3e03b  // sdot v27.4s, v1.16b, v3.4b[1] *)
  Cmp X lhs_ptr (Reg 5); (* 6483: cmp %[lhs_ptr], x5 *)
  Inst 0x4f83e83d; (* 6484: .inst 0x4f83e83d  // sdot v29.4s, v1.16b, v3.4b[2] *)
  Alu AAdd false X rhs_ptr rhs_ptr (Imm 32); (* 6485: add %[rhs_ptr], %[rhs_ptr], #32 *)
  Inst 0x4fa3e83f; (* 6486: .inst 0x4fa3e83f  // sdot v31.4s, v1.16b, v3.4b[3] *)
  LdrD 3 rhs_ptr (Imm (-16)); (* 6487: ldr d3, [%[rhs_ptr], #-16] *)
  Inst 0x4f82e010; (* 6488: .inst 0x4f82e010  // sdot v16.4s, v0.16b, v2.4b[0] *)
  LdrD 1 lhs_ptr (Imm (-16)); (* 6489: ldr d1, [%[lhs_ptr], #-16] *)
  Inst 0x4fa2e012; (* 6490: .inst 0x4fa2e012  // sdot v18.4s, v0.16b, v2.4b[1] *)
  Ins 8 3 1 4; (* 6491: ins v3.d[1], x4 *)
  Inst 0x4f82e814; (* 6492: .inst 0x4f82e814  // sdot v20.4s, v0.16b, v2.4b[2] *)
  Ins 8 1 1 2; (* 6493: ins v1.d[1], x2 *)
  Inst 0x4fa2e816; (* 6494: .inst 0x4fa2e816  // sdot v22.4s, v0.16b, v2.4b[3] *)
  B LT (Back 2); (* 6495: blt 2b *)
  Label 79; (* 6498: 79: *)
  Inst 0x4f83e018; (* 6499: .inst 0x4f83e018  // sdot v24.4s, v0.16b, v3.4b[0] *)
  Ldr 8 5 params (Imm 24); (* 6500: ldr x5, [%[params], #24] *)
  Inst 0x4fa3e01a; (* 6501: .inst 0x4fa3e01a  // sdot v26.4s, v0.16b, v3.4b[1] *)
  Cmp W row (Reg 7); (* 6502: cmp %w[row], w7 *)
  Inst 0x4f83e81c; (* 6503: .inst 0x4f83e81c  // sdot v28.4s, v0.16b, v3.4b[2] *)
  Inst 0x4fa3e81e; (* 6504: .inst 0x4fa3e81e  // sdot v30.4s, v0.16b, v3.4b[3] *)
  Inst 0x4f82e031; (* 6505: .inst 0x4f82e031  // sdot v17.4s, v1.16b, v2.4b[0] *)
  Inst 0x4fa2e033; (* 6506: .inst 0x4fa2e033  // sdot v19.4s, v1.16b, v2.4b[1] *)
  Inst 0x4f82e835; (* 6507: .inst 0x4f82e835  // sdot v21.4s, v1.16b, v2.4b[2] *)
  Inst 0x4fa2e837; (* 6508: .inst 0x4fa2e837  // sdot v23.4s, v1.16b, v2.4b[3] *)
  Inst 0x4f83e039; (* 6509: .inst 0x4f83e039  // sdot v25.4s, v1.16b, v3.4b[0] *)
  Inst 0x4fa3e03b; (* 6510: .inst 0x4fa3e03b  // sdot v27.4s, v1.16b, v3.4b[1] *)
  Inst 0x4f83e83d; (* 6511: .inst 0x4f83e83d  // sdot v29.4s, v1.16b, v3.4b[2] *)
  Inst 0x4fa3e83f; (* 6512: .inst 0x4fa3e83f  // sdot v31.4s, v1.16b, v3.4b[3] *)
  B GE (Fwd 4); (* 6530: bge 4f *)
  Alu AAdd false X lhs_col_ptr lhs_col_ptr (Lsl 9 3); (* 6532: add %[lhs_col_ptr], %[lhs_col_ptr], x9, lsl #3 *)
  B Always (Fwd 5); (* 6533: b 5f *)
  Label 4; (* 6534: 4: *)
  Mov X lhs_col_ptr (Reg 5); (* 6535: mov %[lhs_col_ptr], x5 *)
  Cmp W col (Reg 8); (* 6543: cmp %w[col], w8 *)
  B GE (Fwd 5); (* 6544: bge 5f *)
  Alu AAdd false X rhs_col_ptr rhs_col_ptr (Lsl 10 3); (* 6546: add %[rhs_col_ptr], %[rhs_col_ptr], x10, lsl #3 *)
  Label 5; (* 6547: 5: *)
  Mov X lhs_ptr (Reg lhs_col_ptr); (* 6551: mov %[lhs_ptr], %[lhs_col_ptr] *)
  Movi 8 255; (* 6553: mvni v8.4s, #0 *)
  Mov X rhs_ptr (Reg rhs_col_ptr); (* 6554: mov %[rhs_ptr], %[rhs_col_ptr] *)
  Ldr 4 3 params (Imm 76); (* 6555: ldr w3, [%[params], #76] *)
  Ldr 1 6 params (Imm 128); (* 6556: ldrb w6, [%[params], #128] *)
  Dup 4 4 9 3; (* 6557: dup v9.4s, w3 *)
  Ldr 8 1 params (Imm 0); (* 6559: ldr x1, [%[params], #0] *)
  Tst W 6 (Imm 32); (* 6561: tst w6, #0x20 *)
  Csel W 3 row col EQ; (* 6562: csel w3, %w[row], %w[col], eq *)
  Alu AAdd false X 5 1 (Lsl 3 2); (* 6565: add x5, x1, x3, lsl #2 *)
  Tst W 6 (Imm 1); (* 6569: tst w6, #0x1 *)
  Csel X 1 1 5 EQ; (* 6570: csel x1, x1, x5, eq *)
  Ld1 8 14 1 (Imm 8); (* 6573: ld1 {v14.2s}, [x1], #8 *)
  LdrPost 8 5 1 (Imm 8); (* 6574: ldr x5, [x1], #8 *)
  Ins 8 14 1 5; (* 6575: ins v14.d[1], x5 *)
  Ld1 8 15 1 (Imm 8); (* 6576: ld1 {v15.2s}, [x1], #8 *)
  LdrPost 8 5 1 (Imm 8); (* 6577: ldr x5, [x1], #8 *)
  Ins 8 15 1 5; (* 6578: ins v15.d[1], x5 *)
  V2 (VAdd 4) 14 14 9; (* 6582: add v14.4s, v14.4s, v9.4s *)
  V2 (VAdd 4) 15 15 9; (* 6583: add v15.4s, v15.4s, v9.4s *)
  Tst W 6 (Imm 32); (* 6587: tst w6, #0x20 *)
  B NE (Fwd 6); (* 6588: bne 6f *)
  V2 (VAdd 4) 16 16 14; (* 6590: add v16.4s, v16.4s, v14.4s *)
  V2 (VAdd 4) 17 17 15; (* 6591: add v17.4s, v17.4s, v15.4s *)
  V2 (VAdd 4) 18 18 14; (* 6592: add v18.4s, v18.4s, v14.4s *)
  V2 (VAdd 4) 19 19 15; (* 6593: add v19.4s, v19.4s, v15.4s *)
  V2 (VAdd 4) 20 20 14; (* 6594: add v20.4s, v20.4s, v14.4s *)
  V2 (VAdd 4) 21 21 15; (* 6595: add v21.4s, v21.4s, v15.4s *)
  V2 (VAdd 4) 22 22 14; (* 6596: add v22.4s, v22.4s, v14.4s *)
  V2 (VAdd 4) 23 23 15; (* 6597: add v23.4s, v23.4s, v15.4s *)
  V2 (VAdd 4) 24 24 14; (* 6598: add v24.4s, v24.4s, v14.4s *)
  V2 (VAdd 4) 25 25 15; (* 6599: add v25.4s, v25.4s, v15.4s *)
  V2 (VAdd 4) 26 26 14; (* 6600: add v26.4s, v26.4s, v14.4s *)
  V2 (VAdd 4) 27 27 15; (* 6601: add v27.4s, v27.4s, v15.4s *)
  V2 (VAdd 4) 28 28 14; (* 6602: add v28.4s, v28.4s, v14.4s *)
  V2 (VAdd 4) 29 29 15; (* 6603: add v29.4s, v29.4s, v15.4s *)
  V2 (VAdd 4) 30 30 14; (* 6604: add v30.4s, v30.4s, v14.4s *)
  V2 (VAdd 4) 31 31 15; (* 6605: add v31.4s, v31.4s, v15.4s *)
  B Always (Fwd 7); (* 6606: b 7f *)
  Label 6; (* 6608: 6: *)
  DupLane 4 4 10 14 0; (* 6610: dup v10.4s, v14.s[0] *)
  DupLane 4 4 11 14 1; (* 6611: dup v11.4s, v14.s[1] *)
  V2 (VAdd 4) 16 16 10; (* 6612: add v16.4s, v16.4s, v10.4s *)
  DupLane 4 4 12 14 2; (* 6613: dup v12.4s, v14.s[2] *)
  V2 (VAdd 4) 17 17 10; (* 6614: add v17.4s, v17.4s, v10.4s *)
  DupLane 4 4 13 14 3; (* 6615: dup v13.4s, v14.s[3] *)
  V2 (VAdd 4) 18 18 11; (* 6616: add v18.4s, v18.4s, v11.4s *)
  DupLane 4 4 10 15 0; (* 6617: dup v10.4s, v15.s[0] *)
  V2 (VAdd 4) 19 19 11; (* 6618: add v19.4s, v19.4s, v11.4s *)
  DupLane 4 4 11 15 1; (* 6619: dup v11.4s, v15.s[1] *)
  V2 (VAdd 4) 20 20 12; (* 6620: add v20.4s, v20.4s, v12.4s *)
  V2 (VAdd 4) 21 21 12; (* 6621: add v21.4s, v21.4s, v12.4s *)
  DupLane 4 4 12 15 2; (* 6622: dup v12.4s, v15.s[2] *)
  V2 (VAdd 4) 22 22 13; (* 6623: add v22.4s, v22.4s, v13.4s *)
  V2 (VAdd 4) 23 23 13; (* 6624: add v23.4s, v23.4s, v13.4s *)
  DupLane 4 4 13 15 3; (* 6625: dup v13.4s, v15.s[3] *)
  V2 (VAdd 4) 24 24 10; (* 6626: add v24.4s, v24.4s, v10.4s *)
  V2 (VAdd 4) 25 25 10; (* 6627: add v25.4s, v25.4s, v10.4s *)
  V2 (VAdd 4) 26 26 11; (* 6628: add v26.4s, v26.4s, v11.4s *)
  V2 (VAdd 4) 27 27 11; (* 6629: add v27.4s, v27.4s, v11.4s *)
  V2 (VAdd 4) 28 28 12; (* 6630: add v28.4s, v28.4s, v12.4s *)
  V2 (VAdd 4) 29 29 12; (* 6631: add v29.4s, v29.4s, v12.4s *)
  V2 (VAdd 4) 30 30 13; (* 6632: add v30.4s, v30.4s, v13.4s *)
  V2 (VAdd 4) 31 31 13; (* 6633: add v31.4s, v31.4s, v13.4s *)
  Label 7; (* 6634: 7: *)
  Tst W 6 (Imm 4); (* 6636: tst w6, #0x4 *)
  B EQ (Fwd 401); (* 6637: beq 401f *)
  Ldr 4 5 params (Imm 64); (* 6638: ldr w5, [%[params], #64] *)
  Dup 4 4 10 5; (* 6639: dup v10.4s, w5 *)
  Ldr 8 5 params (Imm 16); (* 6640: ldr x5, [%[params], #16] *)
  Alu AAdd false X 5 5 (Lsl col 2); (* 6641: add x5, x5, %x[col], lsl #2 *)
  Ld1 8 14 5 (Imm 8); (* 6643: ld1 {v14.2s}, [x5], #8 *)
  LdrPost 8 7 5 (Imm 8); (* 6644: ldr x7, [x5], #8 *)
  Ld1 8 15 5 (Imm 8); (* 6645: ld1 {v15.2s}, [x5], #8 *)
  Ins 8 14 1 7; (* 6646: ins v14.d[1], x7 *)
  LdrPost 8 7 5 (Imm 8); (* 6647: ldr x7, [x5], #8 *)
  Ins 8 15 1 7; (* 6648: ins v15.d[1], x7 *)
  MlsLane 16 10 14 0; (* 6651: mls v16.4s, v10.4s, v14.s[0] *)
  MlsLane 17 10 14 0; (* 6652: mls v17.4s, v10.4s, v14.s[0] *)
  MlsLane 18 10 14 1; (* 6653: mls v18.4s, v10.4s, v14.s[1] *)
  MlsLane 19 10 14 1; (* 6654: mls v19.4s, v10.4s, v14.s[1] *)
  MlsLane 20 10 14 2; (* 6655: mls v20.4s, v10.4s, v14.s[2] *)
  MlsLane 21 10 14 2; (* 6656: mls v21.4s, v10.4s, v14.s[2] *)
  MlsLane 22 10 14 3; (* 6657: mls v22.4s, v10.4s, v14.s[3] *)
  MlsLane 23 10 14 3; (* 6658: mls v23.4s, v10.4s, v14.s[3] *)
  MlsLane 24 10 15 0; (* 6659: mls v24.4s, v10.4s, v15.s[0] *)
  MlsLane 25 10 15 0; (* 6660: mls v25.4s, v10.4s, v15.s[0] *)
  MlsLane 26 10 15 1; (* 6661: mls v26.4s, v10.4s, v15.s[1] *)
  MlsLane 27 10 15 1; (* 6662: mls v27.4s, v10.4s, v15.s[1] *)
  MlsLane 28 10 15 2; (* 6663: mls v28.4s, v10.4s, v15.s[2] *)
  MlsLane 29 10 15 2; (* 6664: mls v29.4s, v10.4s, v15.s[2] *)
  MlsLane 30 10 15 3; (* 6665: mls v30.4s, v10.4s, v15.s[3] *)
  MlsLane 31 10 15 3; (* 6666: mls v31.4s, v10.4s, v15.s[3] *)
  Label 401; (* 6667: 401: *)
  Tst W 6 (Imm 2); (* 6669: tst w6, #0x2 *)
  B EQ (Fwd 402); (* 6670: beq 402f *)
  Ldr 8 2 params (Imm 8); (* 6671: ldr x2, [%[params], #8] *)
  Alu AAdd false X 2 2 (Lsl row 2); (* 6672: add x2, x2, %x[row], lsl #2 *)
  Ldr 4 5 params (Imm 68); (* 6673: ldr w5, [%[params], #68] *)
  Ins 4 13 1 5; (* 6674: ins v13.s[1], w5 *)
  Ld1 8 11 2 (Imm 8); (* 6676: ld1 {v11.2s}, [x2], #8 *)
  LdrPost 8 4 2 (Imm 8); (* 6677: ldr x4, [x2], #8 *)
  Ins 8 11 1 4; (* 6678: ins v11.d[1], x4 *)
  Ld1 8 12 2 (Imm 8); (* 6679: ld1 {v12.2s}, [x2], #8 *)
  LdrPost 8 4 2 (Imm 8); (* 6680: ldr x4, [x2], #8 *)
  Ins 8 12 1 4; (* 6681: ins v12.d[1], x4 *)
  MulLane 11 11 13 1; (* 6683: mul v11.4s, v11.4s, v13.s[1] *)
  MulLane 12 12 13 1; (* 6684: mul v12.4s, v12.4s, v13.s[1] *)
  V2 (VSub 4) 16 16 11; (* 6687: sub v16.4s, v16.4s, v11.4s *)
  V2 (VSub 4) 17 17 12; (* 6688: sub v17.4s, v17.4s, v12.4s *)
  V2 (VSub 4) 18 18 11; (* 6689: sub v18.4s, v18.4s, v11.4s *)
  V2 (VSub 4) 19 19 12; (* 6690: sub v19.4s, v19.4s, v12.4s *)
  V2 (VSub 4) 20 20 11; (* 6691: sub v20.4s, v20.4s, v11.4s *)
  V2 (VSub 4) 21 21 12; (* 6692: sub v21.4s, v21.4s, v12.4s *)
  V2 (VSub 4) 22 22 11; (* 6693: sub v22.4s, v22.4s, v11.4s *)
  V2 (VSub 4) 23 23 12; (* 6694: sub v23.4s, v23.4s, v12.4s *)
  V2 (VSub 4) 24 24 11; (* 6695: sub v24.4s, v24.4s, v11.4s *)
  V2 (VSub 4) 25 25 12; (* 6696: sub v25.4s, v25.4s, v12.4s *)
  V2 (VSub 4) 26 26 11; (* 6697: sub v26.4s, v26.4s, v11.4s *)
  V2 (VSub 4) 27 27 12; (* 6698: sub v27.4s, v27.4s, v12.4s *)
  V2 (VSub 4) 28 28 11; (* 6699: sub v28.4s, v28.4s, v11.4s *)
  V2 (VSub 4) 29 29 12; (* 6700: sub v29.4s, v29.4s, v12.4s *)
  V2 (VSub 4) 30 30 11; (* 6701: sub v30.4s, v30.4s, v11.4s *)
  V2 (VSub 4) 31 31 12; (* 6702: sub v31.4s, v31.4s, v12.4s *)
  Cmp W dst_type_id (Imm 4); (* 6704: cmp %w[dst_type_id], #4 *)
  B EQ (Fwd 94); (* 6705: beq 94f *)
  Label 402; (* 6707: 402: *)
  Ldr 8 1 params (Imm 40); (* 6717: ldr x1, [%[params], #40] *)
  Ldr 1 6 params (Imm 128); (* 6719: ldrb w6, [%[params], #128] *)
  Tst W 6 (Imm 8); (* 6720: tst w6, #0x8 *)
  Alu AAdd false X 5 1 (Lsl 3 2); (* 6721: add x5, x1, x3, lsl #2 *)
  Csel X 1 1 5 EQ; (* 6722: csel x1, x1, x5, eq *)
  LdrQ 9 1 (Imm 0); (* 6724: ldr q9, [x1] *)
  LdrQ 10 1 (Imm 16); (* 6725: ldr q10, [x1, #16] *)
  V2 (Smin 4) 11 8 9; (* 6727: smin v11.4s, v8.4s, v9.4s *)
  V2 (Smin 4) 12 8 10; (* 6728: smin v12.4s, v8.4s, v10.4s *)
  V2 (VSub 4) 9 9 11; (* 6729: sub v9.4s, v9.4s, v11.4s *)
  V2 (VSub 4) 10 10 12; (* 6730: sub v10.4s, v10.4s, v12.4s *)
  Ldr 8 4 params (Imm 32); (* 6733: ldr x4, [%[params], #32] *)
  Alu AAdd false X 5 4 (Lsl 3 2); (* 6734: add x5, x4, x3, lsl #2 *)
  Csel X 4 4 5 EQ; (* 6735: csel x4, x4, x5, eq *)
  LdrQ 14 4 (Imm 0); (* 6737: ldr q14, [x4] *)
  LdrQ 15 4 (Imm 16); (* 6738: ldr q15, [x4, #16] *)
  Tst W 6 (Imm 32); (* 6741: tst w6, #0x20 *)
  B NE (Fwd 8); (* 6742: bne 8f *)
  V2 (Sshl 4) 16 16 9; (* 6746: sshl v16.4s, v16.4s, v9.4s *)
  V2 (Sshl 4) 17 17 10; (* 6747: sshl v17.4s, v17.4s, v10.4s *)
  V2 (Sshl 4) 18 18 9; (* 6748: sshl v18.4s, v18.4s, v9.4s *)
  V2 (Sshl 4) 19 19 10; (* 6749: sshl v19.4s, v19.4s, v10.4s *)
  V2 (Sshl 4) 20 20 9; (* 6750: sshl v20.4s, v20.4s, v9.4s *)
  V2 (Sshl 4) 21 21 10; (* 6751: sshl v21.4s, v21.4s, v10.4s *)
  V2 (Sshl 4) 22 22 9; (* 6752: sshl v22.4s, v22.4s, v9.4s *)
  V2 (Sshl 4) 23 23 10; (* 6753: sshl v23.4s, v23.4s, v10.4s *)
  V2 (Sshl 4) 24 24 9; (* 6754: sshl v24.4s, v24.4s, v9.4s *)
  V2 (Sshl 4) 25 25 10; (* 6755: sshl v25.4s, v25.4s, v10.4s *)
  V2 (Sshl 4) 26 26 9; (* 6756: sshl v26.4s, v26.4s, v9.4s *)
  V2 (Sshl 4) 27 27 10; (* 6757: sshl v27.4s, v27.4s, v10.4s *)
  V2 (Sshl 4) 28 28 9; (* 6758: sshl v28.4s, v28.4s, v9.4s *)
  V2 (Sshl 4) 29 29 10; (* 6759: sshl v29.4s, v29.4s, v10.4s *)
  V2 (Sshl 4) 30 30 9; (* 6760: sshl v30.4s, v30.4s, v9.4s *)
  V2 (Sshl 4) 31 31 10; (* 6761: sshl v31.4s, v31.4s, v10.4s *)
  Label 10; (* 6762: 10: *)
  Ld1 8 0 lhs_ptr (Imm 8); (* 6771: ld1 {v0.8b}, [%[lhs_ptr]], #8 *)
  V2 (Sqdmulh 4) 16 16 14; (* 6772: sqdmulh v16.4s, v16.4s, v14.4s *)
  LdrPost 8 1 lhs_ptr (Imm 8); (* 6773: ldr x1, [%[lhs_ptr]], #8 *)
  V2 (Sqdmulh 4) 17 17 15; (* 6774: sqdmulh v17.4s, v17.4s, v15.4s *)
  Ld1 8 1 lhs_ptr (Imm 8); (* 6775: ld1 {v1.8b}, [%[lhs_ptr]], #8 *)
  V2 (Sqdmulh 4) 18 18 14; (* 6776: sqdmulh v18.4s, v18.4s, v14.4s *)
  LdrPost 8 2 lhs_ptr (Imm 8); (* 6777: ldr x2, [%[lhs_ptr]], #8 *)
  V2 (Sqdmulh 4) 19 19 15; (* 6778: sqdmulh v19.4s, v19.4s, v15.4s *)
  Ld1 8 2 rhs_ptr (Imm 8); (* 6779: ld1 {v2.8b}, [%[rhs_ptr]], #8 *)
  V2 (Sqdmulh 4) 20 20 14; (* 6780: sqdmulh v20.4s, v20.4s, v14.4s *)
  LdrPost 8 5 rhs_ptr (Imm 8); (* 6781: ldr x5, [%[rhs_ptr]], #8 *)
  V2 (Sqdmulh 4) 21 21 15; (* 6782: sqdmulh v21.4s, v21.4s, v15.4s *)
  Ld1 8 3 rhs_ptr (Imm 8); (* 6783: ld1 {v3.8b}, [%[rhs_ptr]], #8 *)
  V2 (Sqdmulh 4) 22 22 14; (* 6784: sqdmulh v22.4s, v22.4s, v14.4s *)
  LdrPost 8 6 rhs_ptr (Imm 8); (* 6785: ldr x6, [%[rhs_ptr]], #8 *)
  V2 (Sqdmulh 4) 23 23 15; (* 6786: sqdmulh v23.4s, v23.4s, v15.4s *)
  V2 (Sqdmulh 4) 24 24 14; (* 6787: sqdmulh v24.4s, v24.4s, v14.4s *)
  V2 (Sqdmulh 4) 25 25 15; (* 6788: sqdmulh v25.4s, v25.4s, v15.4s *)
  V2 (Sqdmulh 4) 26 26 14; (* 6789: sqdmulh v26.4s, v26.4s, v14.4s *)
  V2 (Sqdmulh 4) 27 27 15; (* 6790: sqdmulh v27.4s, v27.4s, v15.4s *)
  V2 (Sqdmulh 4) 28 28 14; (* 6791: sqdmulh v28.4s, v28.4s, v14.4s *)
  V2 (Sqdmulh 4) 29 29 15; (* 6792: sqdmulh v29.4s, v29.4s, v15.4s *)
  V2 (Sqdmulh 4) 30 30 14; (* 6793: sqdmulh v30.4s, v30.4s, v14.4s *)
  V2 (Sqdmulh 4) 31 31 15; (* 6794: sqdmulh v31.4s, v31.4s, v15.4s *)
  V2 (Srshl 4) 16 16 11; (* 6797: srshl v16.4s, v16.4s, v11.4s *)
  V2 (Srshl 4) 17 17 12; (* 6798: srshl v17.4s, v17.4s, v12.4s *)
  V2 (Srshl 4) 18 18 11; (* 6799: srshl v18.4s, v18.4s, v11.4s *)
  V2 (Srshl 4) 19 19 12; (* 6800: srshl v19.4s, v19.4s, v12.4s *)
  V2 (Srshl 4) 20 20 11; (* 6801: srshl v20.4s, v20.4s, v11.4s *)
  V2 (Srshl 4) 21 21 12; (* 6802: srshl v21.4s, v21.4s, v12.4s *)
  V2 (Srshl 4) 22 22 11; (* 6803: srshl v22.4s, v22.4s, v11.4s *)
  V2 (Srshl 4) 23 23 12; (* 6804: srshl v23.4s, v23.4s, v12.4s *)
  V2 (Srshl 4) 24 24 11; (* 6805: srshl v24.4s, v24.4s, v11.4s *)
  V2 (Srshl 4) 25 25 12; (* 6806: srshl v25.4s, v25.4s, v12.4s *)
  Ldr 4 4 params (Imm 72); (* 6807: ldr w4, [%[params], #72] *)
  V2 (Srshl 4) 26 26 11; (* 6808: srshl v26.4s, v26.4s, v11.4s *)
  Ins 2 13 4 4; (* 6809: ins v13.h[4], w4 *)
  V2 (Srshl 4) 27 27 12; (* 6810: srshl v27.4s, v27.4s, v12.4s *)
  Ins 8 0 1 1; (* 6811: ins v0.d[1], x1 *)
  V2 (Srshl 4) 28 28 11; (* 6812: srshl v28.4s, v28.4s, v11.4s *)
  Ins 8 1 1 2; (* 6813: ins v1.d[1], x2 *)
  V2 (Srshl 4) 29 29 12; (* 6814: srshl v29.4s, v29.4s, v12.4s *)
  Ins 8 2 1 5; (* 6815: ins v2.d[1], x5 *)
  V2 (Srshl 4) 30 30 11; (* 6816: srshl v30.4s, v30.4s, v11.4s *)
  Ins 8 3 1 6; (* 6817: ins v3.d[1], x6 *)
  V2 (Srshl 4) 31 31 12; (* 6818: srshl v31.4s, v31.4s, v12.4s *)
  B Always (Fwd 9); (* 6819: b 9f *)
  Label 8; (* 6821: 8: *)
  DupLane 4 4 4 9 0; (* 6825: dup v4.4s, v9.s[0] *)
  DupLane 4 4 5 9 1; (* 6826: dup v5.4s, v9.s[1] *)
  V2 (Sshl 4) 16 16 4; (* 6827: sshl v16.4s, v16.4s, v4.4s *)
  DupLane 4 4 6 9 2; (* 6828: dup v6.4s, v9.s[2] *)
  V2 (Sshl 4) 17 17 4; (* 6829: sshl v17.4s, v17.4s, v4.4s *)
  DupLane 4 4 7 9 3; (* 6830: dup v7.4s, v9.s[3] *)
  V2 (Sshl 4) 18 18 5; (* 6831: sshl v18.4s, v18.4s, v5.4s *)
  DupLane 4 4 4 10 0; (* 6832: dup v4.4s, v10.s[0] *)
  V2 (Sshl 4) 19 19 5; (* 6833: sshl v19.4s, v19.4s, v5.4s *)
  DupLane 4 4 5 10 1; (* 6834: dup v5.4s, v10.s[1] *)
  V2 (Sshl 4) 20 20 6; (* 6835: sshl v20.4s, v20.4s, v6.4s *)
  V2 (Sshl 4) 21 21 6; (* 6836: sshl v21.4s, v21.4s, v6.4s *)
  DupLane 4 4 6 10 2; (* 6837: dup v6.4s, v10.s[2] *)
  V2 (Sshl 4) 22 22 7; (* 6838: sshl v22.4s, v22.4s, v7.4s *)
  V2 (Sshl 4) 23 23 7; (* 6839: sshl v23.4s, v23.4s, v7.4s *)
  DupLane 4 4 7 10 3; (* 6840: dup v7.4s, v10.s[3] *)
  V2 (Sshl 4) 24 24 4; (* 6841: sshl v24.4s, v24.4s, v4.4s *)
  V2 (Sshl 4) 25 25 4; (* 6842: sshl v25.4s, v25.4s, v4.4s *)
  V2 (Sshl 4) 26 26 5; (* 6843: sshl v26.4s, v26.4s, v5.4s *)
  V2 (Sshl 4) 27 27 5; (* 6844: sshl v27.4s, v27.4s, v5.4s *)
  V2 (Sshl 4) 28 28 6; (* 6845: sshl v28.4s, v28.4s, v6.4s *)
  V2 (Sshl 4) 29 29 6; (* 6846: sshl v29.4s, v29.4s, v6.4s *)
  V2 (Sshl 4) 30 30 7; (* 6847: sshl v30.4s, v30.4s, v7.4s *)
  V2 (Sshl 4) 31 31 7; (* 6848: sshl v31.4s, v31.4s, v7.4s *)
  Label 11; (* 6849: 11: *)
  Ld1 8 0 lhs_ptr (Imm 8); (* 6858: ld1 {v0.8b}, [%[lhs_ptr]], #8 *)
  SqdmulhLane 16 16 14 0; (* 6859: sqdmulh v16.4s, v16.4s, v14.s[0] *)
  LdrPost 8 1 lhs_ptr (Imm 8); (* 6860: ldr x1, [%[lhs_ptr]], #8 *)
  SqdmulhLane 17 17 14 0; (* 6861: sqdmulh v17.4s, v17.4s, v14.s[0] *)
  Ld1 8 1 lhs_ptr (Imm 8); (* 6862: ld1 {v1.8b}, [%[lhs_ptr]], #8 *)
  SqdmulhLane 18 18 14 1; (* 6863: sqdmulh v18.4s, v18.4s, v14.s[1] *)
  LdrPost 8 2 lhs_ptr (Imm 8); (* 6864: ldr x2, [%[lhs_ptr]], #8 *)
  SqdmulhLane 19 19 14 1; (* 6865: sqdmulh v19.4s, v19.4s, v14.s[1] *)
  Ld1 8 2 rhs_ptr (Imm 8); (* 6866: ld1 {v2.8b}, [%[rhs_ptr]], #8 *)
  SqdmulhLane 20 20 14 2; (* 6867: sqdmulh v20.4s, v20.4s, v14.s[2] *)
  LdrPost 8 5 rhs_ptr (Imm 8); (* 6868: ldr x5, [%[rhs_ptr]], #8 *)
  SqdmulhLane 21 21 14 2; (* 6869: sqdmulh v21.4s, v21.4s, v14.s[2] *)
  Ld1 8 3 rhs_ptr (Imm 8); (* 6870: ld1 {v3.8b}, [%[rhs_ptr]], #8 *)
  SqdmulhLane 22 22 14 3; (* 6871: sqdmulh v22.4s, v22.4s, v14.s[3] *)
  LdrPost 8 6 rhs_ptr (Imm 8); (* 6872: ldr x6, [%[rhs_ptr]], #8 *)
  SqdmulhLane 23 23 14 3; (* 6873: sqdmulh v23.4s, v23.4s, v14.s[3] *)
  DupLane 4 4 4 11 0; (* 6874: dup v4.4s, v11.s[0] *)
  SqdmulhLane 24 24 15 0; (* 6875: sqdmulh v24.4s, v24.4s, v15.s[0] *)
  DupLane 4 4 5 11 1; (* 6876: dup v5.4s, v11.s[1] *)
  SqdmulhLane 25 25 15 0; (* 6877: sqdmulh v25.4s, v25.4s, v15.s[0] *)
  DupLane 4 4 6 11 2; (* 6878: dup v6.4s, v11.s[2] *)
  SqdmulhLane 26 26 15 1; (* 6879: sqdmulh v26.4s, v26.4s, v15.s[1] *)
  DupLane 4 4 7 11 3; (* 6880: dup v7.4s, v11.s[3] *)
  SqdmulhLane 27 27 15 1; (* 6881: sqdmulh v27.4s, v27.4s, v15.s[1] *)
  SqdmulhLane 28 28 15 2; (* 6882: sqdmulh v28.4s, v28.4s, v15.s[2] *)
  SqdmulhLane 29 29 15 2; (* 6883: sqdmulh v29.4s, v29.4s, v15.s[2] *)
  SqdmulhLane 30 30 15 3; (* 6884: sqdmulh v30.4s, v30.4s, v15.s[3] *)
  SqdmulhLane 31 31 15 3; (* 6885: sqdmulh v31.4s, v31.4s, v15.s[3] *)
  V2 (Srshl 4) 16 16 4; (* 6888: srshl v16.4s, v16.4s, v4.4s *)
  V2 (Srshl 4) 17 17 4; (* 6889: srshl v17.4s, v17.4s, v4.4s *)
  DupLane 4 4 4 12 0; (* 6890: dup v4.4s, v12.s[0] *)
  V2 (Srshl 4) 18 18 5; (* 6891: srshl v18.4s, v18.4s, v5.4s *)
  V2 (Srshl 4) 19 19 5; (* 6892: srshl v19.4s, v19.4s, v5.4s *)
  DupLane 4 4 5 12 1; (* 6893: dup v5.4s, v12.s[1] *)
  V2 (Srshl 4) 20 20 6; (* 6894: srshl v20.4s, v20.4s, v6.4s *)
  V2 (Srshl 4) 21 21 6; (* 6895: srshl v21.4s, v21.4s, v6.4s *)
  DupLane 4 4 6 12 2; (* 6896: dup v6.4s, v12.s[2] *)
  V2 (Srshl 4) 22 22 7; (* 6897: srshl v22.4s, v22.4s, v7.4s *)
  V2 (Srshl 4) 23 23 7; (* 6898: srshl v23.4s, v23.4s, v7.4s *)
  DupLane 4 4 7 12 3; (* 6899: dup v7.4s, v12.s[3] *)
  V2 (Srshl 4) 24 24 4; (* 6900: srshl v24.4s, v24.4s, v4.4s *)
  Ldr 4 4 params (Imm 72); (* 6901: ldr w4, [%[params], #72] *)
  V2 (Srshl 4) 25 25 4; (* 6902: srshl v25.4s, v25.4s, v4.4s *)
  Ins 2 13 4 4; (* 6903: ins v13.h[4], w4 *)
  V2 (Srshl 4) 26 26 5; (* 6904: srshl v26.4s, v26.4s, v5.4s *)
  Ins 8 0 1 1; (* 6905: ins v0.d[1], x1 *)
  V2 (Srshl 4) 27 27 5; (* 6906: srshl v27.4s, v27.4s, v5.4s *)
  Ins 8 1 1 2; (* 6907: ins v1.d[1], x2 *)
  V2 (Srshl 4) 28 28 6; (* 6908: srshl v28.4s, v28.4s, v6.4s *)
  Ins 8 2 1 5; (* 6909: ins v2.d[1], x5 *)
  V2 (Srshl 4) 29 29 6; (* 6910: srshl v29.4s, v29.4s, v6.4s *)
  Ins 8 3 1 6; (* 6911: ins v3.d[1], x6 *)
  V2 (Srshl 4) 30 30 7; (* 6912: srshl v30.4s, v30.4s, v7.4s *)
  V2 (Srshl 4) 31 31 7; (* 6913: srshl v31.4s, v31.4s, v7.4s *)
  Label 9; (* 6914: 9: *)
  Cmp W dst_type_id (Imm 3); (* 6916: cmp %w[dst_type_id], #3 *)
  B EQ (Fwd 93); (* 6917: beq 93f *)
  Cmp W dst_type_id (Imm 2); (* 6918: cmp %w[dst_type_id], #2 *)
  B EQ (Fwd 92); (* 6919: beq 92f *)
  Label 91; (* 6921: 91: *)
  Narrow false false 2 16 16; (* 6924: sqxtn v16.4h, v16.4s *)
  Narrow false true 2 16 17; (* 6925: sqxtn2 v16.8h, v17.4s *)
  Narrow false false 2 17 18; (* 6926: sqxtn v17.4h, v18.4s *)
  Narrow false true 2 17 19; (* 6927: sqxtn2 v17.8h, v19.4s *)
  Narrow false false 2 18 20; (* 6928: sqxtn v18.4h, v20.4s *)
  Narrow false true 2 18 21; (* 6929: sqxtn2 v18.8h, v21.4s *)
  Narrow false false 2 19 22; (* 6930: sqxtn v19.4h, v22.4s *)
  Narrow false true 2 19 23; (* 6931: sqxtn2 v19.8h, v23.4s *)
  Narrow false false 2 20 24; (* 6932: sqxtn v20.4h, v24.4s *)
  Narrow false true 2 20 25; (* 6933: sqxtn2 v20.8h, v25.4s *)
  Narrow false false 2 21 26; (* 6934: sqxtn v21.4h, v26.4s *)
  Narrow false true 2 21 27; (* 6935: sqxtn2 v21.8h, v27.4s *)
  Narrow false false 2 22 28; (* 6936: sqxtn v22.4h, v28.4s *)
  Narrow false true 2 22 29; (* 6937: sqxtn2 v22.8h, v29.4s *)
  Narrow false false 2 23 30; (* 6938: sqxtn v23.4h, v30.4s *)
  Narrow false true 2 23 31; (* 6939: sqxtn2 v23.8h, v31.4s *)
  DupLane 2 8 14 13 4; (* 6942: dup v14.8h, v13.h[4] *)
  Movi 24 0; (* 6946: movi v24.4s, #0 *)
  Movi 25 0; (* 6947: movi v25.4s, #0 *)
  Movi 26 0; (* 6948: movi v26.4s, #0 *)
  Movi 27 0; (* 6949: movi v27.4s, #0 *)
  Movi 28 0; (* 6950: movi v28.4s, #0 *)
  Movi 29 0; (* 6951: movi v29.4s, #0 *)
  Movi 30 0; (* 6952: movi v30.4s, #0 *)
  Movi 31 0; (* 6953: movi v31.4s, #0 *)
  V2 (Sqadd 2) 16 16 14; (* 6956: sqadd v16.8h, v16.8h, v14.8h *)
  V2 (Sqadd 2) 17 17 14; (* 6957: sqadd v17.8h, v17.8h, v14.8h *)
  V2 (Sqadd 2) 18 18 14; (* 6958: sqadd v18.8h, v18.8h, v14.8h *)
  V2 (Sqadd 2) 19 19 14; (* 6959: sqadd v19.8h, v19.8h, v14.8h *)
  V2 (Sqadd 2) 20 20 14; (* 6960: sqadd v20.8h, v20.8h, v14.8h *)
  V2 (Sqadd 2) 21 21 14; (* 6961: sqadd v21.8h, v21.8h, v14.8h *)
  V2 (Sqadd 2) 22 22 14; (* 6962: sqadd v22.8h, v22.8h, v14.8h *)
  V2 (Sqadd 2) 23 23 14; (* 6963: sqadd v23.8h, v23.8h, v14.8h *)
  Ldr 1 2 params (Imm 120); (* 6966: ldrb w2, [%[params], #120] *)
  Narrow true false 1 16 16; (* 6968: sqxtun v16.8b, v16.8h *)
  Ldr 1 3 params (Imm 124); (* 6969: ldrb w3, [%[params], #124] *)
  Narrow true true 1 16 17; (* 6970: sqxtun2 v16.16b, v17.8h *)
  Narrow true false 1 17 18; (* 6971: sqxtun v17.8b, v18.8h *)
  Narrow true true 1 17 19; (* 6972: sqxtun2 v17.16b, v19.8h *)
  Narrow true false 1 18 20; (* 6973: sqxtun v18.8b, v20.8h *)
  Narrow true true 1 18 21; (* 6974: sqxtun2 v18.16b, v21.8h *)
  Narrow true false 1 19 22; (* 6975: sqxtun v19.8b, v22.8h *)
  Narrow true true 1 19 23; (* 6976: sqxtun2 v19.16b, v23.8h *)
  Dup 1 16 14 2; (* 6978: dup v14.16b, w2 *)
  Dup 1 16 15 3; (* 6979: dup v15.16b, w3 *)
  Alu ASub false W 1 dst_rows (Reg row); (* 6986: sub w1, %w[dst_rows], %w[row] *)
  V2 (Umax 1) 16 16 14; (* 6988: umax v16.16b, v16.16b, v14.16b *)
  Alu ASub false W 2 dst_cols (Reg col); (* 6989: sub w2, %w[dst_cols], %w[col] *)
  V2 (Umax 1) 17 17 14; (* 6990: umax v17.16b, v17.16b, v14.16b *)
  Mov W 3 (Imm 8); (* 6991: mov w3, #8 *)
  V2 (Umax 1) 18 18 14; (* 6992: umax v18.16b, v18.16b, v14.16b *)
  Cmp W 1 (Imm 8); (* 6993: cmp w1, #8 *)
  V2 (Umax 1) 19 19 14; (* 6994: umax v19.16b, v19.16b, v14.16b *)
  Csel W 1 1 3 LE; (* 6996: csel w1, w1, w3, le *)
  V2 (Umin 1) 16 16 15; (* 6998: umin v16.16b, v16.16b, v15.16b *)
  Cmp W 2 (Imm 8); (* 6999: cmp w2, #8 *)
  V2 (Umin 1) 17 17 15; (* 7000: umin v17.16b, v17.16b, v15.16b *)
  Csel W 2 2 3 LE; (* 7002: csel w2, w2, w3, le *)
  V2 (Umin 1) 18 18 15; (* 7003: umin v18.16b, v18.16b, v15.16b *)
  V2 (Umin 1) 19 19 15; (* 7004: umin v19.16b, v19.16b, v15.16b *)
  DupLane 8 1 20 16 1; (* 7009: dup d20, v16.d[1] *)
  DupLane 8 1 21 17 1; (* 7010: dup d21, v17.d[1] *)
  DupLane 8 1 22 18 1; (* 7011: dup d22, v18.d[1] *)
  DupLane 8 1 23 19 1; (* 7012: dup d23, v19.d[1] *)
  Cmp W 1 (Reg 3); (* 7015: cmp w1, w3 *)
  Ccmp W 2 (Reg 3) EQ; (* 7016: ccmp w2, w3, 0, eq *)
  B EQ (Fwd 30); (* 7018: beq 30f *)
  Mov X 3 (Reg dst_tmp_buf); (* 7021: mov x3, %[dst_tmp_buf] *)
  Mov X 4 (Imm 8); (* 7022: mov x4, #8 *)
  B Always (Fwd 31); (* 7023: b 31f *)
  Label 30; (* 7024: 30: *)
  Mov X 3 (Reg dst_ptr); (* 7027: mov x3, %[dst_ptr] *)
  Mov X 4 (Reg 11); (* 7028: mov x4, x11 *)
  Label 31; (* 7029: 31: *)
  Nop; (* 7033: prfm pstl1strm, [x3] *)
  St1 8 16 3 (Reg 4); (* 7034: st1 {v16.8b}, [x3], x4 *)
  Movi 16 0; (* 7035: movi v16.4s, #0 *)
  Nop; (* 7036: prfm pstl1strm, [x3] *)
  St1 8 20 3 (Reg 4); (* 7037: st1 {v20.8b}, [x3], x4 *)
  Movi 20 0; (* 7038: movi v20.4s, #0 *)
  Inst 0x4f82e010; (* 7041: .inst 0x4f82e010  // sdot v16.4s, v0.16b, v2.4b[0] *)
  Nop; (* 7042: prfm pstl1strm, [x3] *)
  St1 8 17 3 (Reg 4); (* 7043: st1 {v17.8b}, [x3], x4 *)
  Movi 17 0; (* 7044: movi v17.4s, #0 *)
  Inst 0x4f82e814; (* 7045: .inst 0x4f82e814  // sdot v20.4s, v0.16b, v2.4b[2] *)
  Nop; (* 7046: prfm pstl1strm, [x3] *)
  St1 8 21 3 (Reg 4); (* 7047: st1 {v21.8b}, [x3], x4 *)
  Movi 21 0; (* 7048: movi v21.4s, #0 *)
  Nop; (* 7049: prfm pstl1strm, [x3] *)
  St1 8 18 3 (Reg 4); (* 7050: st1 {v18.8b}, [x3], x4 *)
  Movi 18 0; (* 7051: movi v18.4s, #0 *)
  Nop; (* 7052: prfm pstl1strm, [x3] *)
  St1 8 22 3 (Reg 4); (* 7053: st1 {v22.8b}, [x3], x4 *)
  Movi 22 0; (* 7054: movi v22.4s, #0 *)
  Inst 0x4fa2e012; (* 7055: .inst 0x4fa2e012  // sdot v18.4s, v0.16b, v2.4b[1] *)
  Nop; (* 7056: prfm pstl1strm, [x3] *)
  St1 8 19 3 (Reg 4); (* 7057: st1 {v19.8b}, [x3], x4 *)
  Movi 19 0; (* 7058: movi v19.4s, #0 *)
  Inst 0x4fa2e816; (* 7059: .inst 0x4fa2e816  // sdot v22.4s, v0.16b, v2.4b[3] *)
  Nop; (* 7060: prfm pstl1strm, [x3] *)
  St1 8 23 3 (Reg 4); (* 7061: st1 {v23.8b}, [x3], x4 *)
  Movi 23 0; (* 7062: movi v23.4s, #0 *)
  B EQ (Fwd 41); (* 7066: beq 41f *)
  Mov X 3 (Reg dst_tmp_buf); (* 7070: mov x3, %[dst_tmp_buf] *)
  Mov X 4 (Reg dst_ptr); (* 7071: mov x4, %[dst_ptr] *)
  Mov W 6 (Imm 0); (* 7072: mov w6, #0 *)
  Label 50; (* 7073: 50: *)
  Nop; (* 7074: prfm pstl1strm, [x4] *)
  Mov W 5 (Imm 0); (* 7075: mov w5, #0 *)
  Label 51; (* 7076: 51: *)
  Ldr 1 7 3 (Uxtw 5); (* 7077: ldrb w7, [x3, w5, uxtw] *)
  Str 1 7 4 (Uxtw 5); (* 7078: strb w7, [x4, w5, uxtw] *)
  Alu AAdd false W 5 5 (Imm 1); (* 7079: add w5, w5, #1 *)
  Cmp W 5 (Reg 1); (* 7080: cmp w5, w1 *)
  B LT (Back 51); (* 7081: blt 51b *)
  Alu AAdd false W 6 6 (Imm 1); (* 7082: add w6, w6, #1 *)
  Alu AAdd false X 3 3 (Imm 8); (* 7083: add x3, x3, #8 *)
  Alu AAdd false X 4 4 (Reg 11); (* 7084: add x4, x4, x11 *)
  Cmp W 6 (Reg 2); (* 7085: cmp w6, w2 *)
  B LT (Back 50); (* 7086: blt 50b *)
  Label 41; (* 7087: 41: *)
  Alu AAdd false X dst_ptr dst_ptr (Imm 8); (* 7088: add %[dst_ptr], %[dst_ptr], #8 *)
  B Always (Fwd 99); (* 7093: b 99f *)
  Label 92; (* 7095: 92: *)
  Narrow false false 2 16 16; (* 7098: sqxtn v16.4h, v16.4s *)
  Narrow false true 2 16 17; (* 7099: sqxtn2 v16.8h, v17.4s *)
  Narrow false false 2 17 18; (* 7100: sqxtn v17.4h, v18.4s *)
  Narrow false true 2 17 19; (* 7101: sqxtn2 v17.8h, v19.4s *)
  Narrow false false 2 18 20; (* 7102: sqxtn v18.4h, v20.4s *)
  Narrow false true 2 18 21; (* 7103: sqxtn2 v18.8h, v21.4s *)
  Narrow false false 2 19 22; (* 7104: sqxtn v19.4h, v22.4s *)
  Narrow false true 2 19 23; (* 7105: sqxtn2 v19.8h, v23.4s *)
  Narrow false false 2 20 24; (* 7106: sqxtn v20.4h, v24.4s *)
  Narrow false true 2 20 25; (* 7107: sqxtn2 v20.8h, v25.4s *)
  Narrow false false 2 21 26; (* 7108: sqxtn v21.4h, v26.4s *)
  Narrow false true 2 21 27; (* 7109: sqxtn2 v21.8h, v27.4s *)
  Narrow false false 2 22 28; (* 7110: sqxtn v22.4h, v28.4s *)
  Narrow false true 2 22 29; (* 7111: sqxtn2 v22.8h, v29.4s *)
  Narrow false false 2 23 30; (* 7112: sqxtn v23.4h, v30.4s *)
  Narrow false true 2 23 31; (* 7113: sqxtn2 v23.8h, v31.4s *)
  DupLane 2 8 14 13 4; (* 7116: dup v14.8h, v13.h[4] *)
  Movi 24 0; (* 7120: movi v24.4s, #0 *)
  Movi 25 0; (* 7121: movi v25.4s, #0 *)
  Movi 26 0; (* 7122: movi v26.4s, #0 *)
  Movi 27 0; (* 7123: movi v27.4s, #0 *)
  Movi 28 0; (* 7124: movi v28.4s, #0 *)
  Movi 29 0; (* 7125: movi v29.4s, #0 *)
  Movi 30 0; (* 7126: movi v30.4s, #0 *)
  Movi 31 0; (* 7127: movi v31.4s, #0 *)
  V2 (Sqadd 2) 16 16 14; (* 7130: sqadd v16.8h, v16.8h, v14.8h *)
  V2 (Sqadd 2) 17 17 14; (* 7131: sqadd v17.8h, v17.8h, v14.8h *)
  V2 (Sqadd 2) 18 18 14; (* 7132: sqadd v18.8h, v18.8h, v14.8h *)
  V2 (Sqadd 2) 19 19 14; (* 7133: sqadd v19.8h, v19.8h, v14.8h *)
  V2 (Sqadd 2) 20 20 14; (* 7134: sqadd v20.8h, v20.8h, v14.8h *)
  V2 (Sqadd 2) 21 21 14; (* 7135: sqadd v21.8h, v21.8h, v14.8h *)
  V2 (Sqadd 2) 22 22 14; (* 7136: sqadd v22.8h, v22.8h, v14.8h *)
  V2 (Sqadd 2) 23 23 14; (* 7137: sqadd v23.8h, v23.8h, v14.8h *)
  Ldr 1 2 params (Imm 120); (* 7140: ldrb w2, [%[params], #120] *)
  Narrow false false 1 16 16; (* 7142: sqxtn v16.8b, v16.8h *)
  Ldr 1 3 params (Imm 124); (* 7143: ldrb w3, [%[params], #124] *)
  Narrow false true 1 16 17; (* 7144: sqxtn2 v16.16b, v17.8h *)
  Narrow false false 1 17 18; (* 7145: sqxtn v17.8b, v18.8h *)
  Narrow false true 1 17 19; (* 7146: sqxtn2 v17.16b, v19.8h *)
  Narrow false false 1 18 20; (* 7147: sqxtn v18.8b, v20.8h *)
  Narrow false true 1 18 21; (* 7148: sqxtn2 v18.16b, v21.8h *)
  Narrow false false 1 19 22; (* 7149: sqxtn v19.8b, v22.8h *)
  Narrow false true 1 19 23; (* 7150: sqxtn2 v19.16b, v23.8h *)
  Dup 1 16 14 2; (* 7152: dup v14.16b, w2 *)
  Dup 1 16 15 3; (* 7153: dup v15.16b, w3 *)
  Alu ASub false W 1 dst_rows (Reg row); (* 7160: sub w1, %w[dst_rows], %w[row] *)
  V2 (Smax 1) 16 16 14; (* 7162: smax v16.16b, v16.16b, v14.16b *)
  Alu ASub false W 2 dst_cols (Reg col); (* 7163: sub w2, %w[dst_cols], %w[col] *)
  V2 (Smax 1) 17 17 14; (* 7164: smax v17.16b, v17.16b, v14.16b *)
  Mov W 3 (Imm 8); (* 7165: mov w3, #8 *)
  V2 (Smax 1) 18 18 14; (* 7166: smax v18.16b, v18.16b, v14.16b *)
  Cmp W 1 (Imm 8); (* 7167: cmp w1, #8 *)
  V2 (Smax 1) 19 19 14; (* 7168: smax v19.16b, v19.16b, v14.16b *)
  Csel W 1 1 3 LE; (* 7170: csel w1, w1, w3, le *)
  V2 (Smin 1) 16 16 15; (* 7172: smin v16.16b, v16.16b, v15.16b *)
  Cmp W 2 (Imm 8); (* 7173: cmp w2, #8 *)
  V2 (Smin 1) 17 17 15; (* 7174: smin v17.16b, v17.16b, v15.16b *)
  Csel W 2 2 3 LE; (* 7176: csel w2, w2, w3, le *)
  V2 (Smin 1) 18 18 15; (* 7177: smin v18.16b, v18.16b, v15.16b *)
  V2 (Smin 1) 19 19 15; (* 7178: smin v19.16b, v19.16b, v15.16b *)
  DupLane 8 1 20 16 1; (* 7183: dup d20, v16.d[1] *)
  DupLane 8 1 21 17 1; (* 7184: dup d21, v17.d[1] *)
  DupLane 8 1 22 18 1; (* 7185: dup d22, v18.d[1] *)
  DupLane 8 1 23 19 1; (* 7186: dup d23, v19.d[1] *)
  Cmp W 1 (Reg 3); (* 7189: cmp w1, w3 *)
  Ccmp W 2 (Reg 3) EQ; (* 7190: ccmp w2, w3, 0, eq *)
  B EQ (Fwd 130); (* 7192: beq 130f *)
  Mov X 3 (Reg dst_tmp_buf); (* 7195: mov x3, %[dst_tmp_buf] *)
  Mov X 4 (Imm 8); (* 7196: mov x4, #8 *)
  B Always (Fwd 131); (* 7197: b 131f *)
  Label 130; (* 7198: 130: *)
  Mov X 3 (Reg dst_ptr); (* 7201: mov x3, %[dst_ptr] *)
  Mov X 4 (Reg 11); (* 7202: mov x4, x11 *)
  Label 131; (* 7203: 131: *)
  Nop; (* 7207: prfm pstl1strm, [x3] *)
  St1 8 16 3 (Reg 4); (* 7208: st1 {v16.8b}, [x3], x4 *)
  Movi 16 0; (* 7209: movi v16.4s, #0 *)
  Nop; (* 7210: prfm pstl1strm, [x3] *)
  St1 8 20 3 (Reg 4); (* 7211: st1 {v20.8b}, [x3], x4 *)
  Movi 20 0; (* 7212: movi v20.4s, #0 *)
  Inst 0x4f82e010; (* 7215: .inst 0x4f82e010  // sdot v16.4s, v0.16b, v2.4b[0] *)
  Nop; (* 7216: prfm pstl1strm, [x3] *)
  St1 8 17 3 (Reg 4); (* 7217: st1 {v17.8b}, [x3], x4 *)
  Movi 17 0; (* 7218: movi v17.4s, #0 *)
  Inst 0x4f82e814; (* 7219: .inst 0x4f82e814  // sdot v20.4s, v0.16b, v2.4b[2] *)
  Nop; (* 7220: prfm pstl1strm, [x3] *)
  St1 8 21 3 (Reg 4); (* 7221: st1 {v21.8b}, [x3], x4 *)
  Movi 21 0; (* 7222: movi v21.4s, #0 *)
  Nop; (* 7223: prfm pstl1strm, [x3] *)
  St1 8 18 3 (Reg 4); (* 7224: st1 {v18.8b}, [x3], x4 *)
  Movi 18 0; (* 7225: movi v18.4s, #0 *)
  Nop; (* 7226: prfm pstl1strm, [x3] *)
  St1 8 22 3 (Reg 4); (* 7227: st1 {v22.8b}, [x3], x4 *)
  Movi 22 0; (* 7228: movi v22.4s, #0 *)
  Inst 0x4fa2e012; (* 7229: .inst 0x4fa2e012  // sdot v18.4s, v0.16b, v2.4b[1] *)
  Nop; (* 7230: prfm pstl1strm, [x3] *)
  St1 8 19 3 (Reg 4); (* 7231: st1 {v19.8b}, [x3], x4 *)
  Movi 19 0; (* 7232: movi v19.4s, #0 *)
  Inst 0x4fa2e816; (* 7233: .inst 0x4fa2e816  // sdot v22.4s, v0.16b, v2.4b[3] *)
  Nop; (* 7234: prfm pstl1strm, [x3] *)
  St1 8 23 3 (Reg 4); (* 7235: st1 {v23.8b}, [x3], x4 *)
  Movi 23 0; (* 7236: movi v23.4s, #0 *)
  B EQ (Fwd 141); (* 7240: beq 141f *)
  Mov X 3 (Reg dst_tmp_buf); (* 7244: mov x3, %[dst_tmp_buf] *)
  Mov X 4 (Reg dst_ptr); (* 7245: mov x4, %[dst_ptr] *)
  Mov W 6 (Imm 0); (* 7246: mov w6, #0 *)
  Label 150; (* 7247: 150: *)
  Nop; (* 7248: prfm pstl1strm, [x4] *)
  Mov W 5 (Imm 0); (* 7249: mov w5, #0 *)
  Label 151; (* 7250: 151: *)
  Ldr 1 7 3 (Uxtw 5); (* 7251: ldrb w7, [x3, w5, uxtw] *)
  Str 1 7 4 (Uxtw 5); (* 7252: strb w7, [x4, w5, uxtw] *)
  Alu AAdd false W 5 5 (Imm 1); (* 7253: add w5, w5, #1 *)
  Cmp W 5 (Reg 1); (* 7254: cmp w5, w1 *)
  B LT (Back 151); (* 7255: blt 151b *)
  Alu AAdd false W 6 6 (Imm 1); (* 7256: add w6, w6, #1 *)
  Alu AAdd false X 3 3 (Imm 8); (* 7257: add x3, x3, #8 *)
  Alu AAdd false X 4 4 (Reg 11); (* 7258: add x4, x4, x11 *)
  Cmp W 6 (Reg 2); (* 7259: cmp w6, w2 *)
  B LT (Back 150); (* 7260: blt 150b *)
  Label 141; (* 7261: 141: *)
  Alu AAdd false X dst_ptr dst_ptr (Imm 8); (* 7262: add %[dst_ptr], %[dst_ptr], #8 *)
  B Always (Fwd 99); (* 7267: b 99f *)
  Label 93; (* 7269: 93: *)
  DupLane 2 8 14 13 4; (* 7272: dup v14.8h, v13.h[4] *)
  Saddw 16 16 14; (* 7273: saddw v16.4s, v16.4s, v14.4h *)
  Saddw 17 17 14; (* 7274: saddw v17.4s, v17.4s, v14.4h *)
  Saddw 18 18 14; (* 7275: saddw v18.4s, v18.4s, v14.4h *)
  Saddw 19 19 14; (* 7276: saddw v19.4s, v19.4s, v14.4h *)
  Saddw 20 20 14; (* 7277: saddw v20.4s, v20.4s, v14.4h *)
  Saddw 21 21 14; (* 7278: saddw v21.4s, v21.4s, v14.4h *)
  Saddw 22 22 14; (* 7279: saddw v22.4s, v22.4s, v14.4h *)
  Saddw 23 23 14; (* 7280: saddw v23.4s, v23.4s, v14.4h *)
  Saddw 24 24 14; (* 7281: saddw v24.4s, v24.4s, v14.4h *)
  Saddw 25 25 14; (* 7282: saddw v25.4s, v25.4s, v14.4h *)
  Saddw 26 26 14; (* 7283: saddw v26.4s, v26.4s, v14.4h *)
  Saddw 27 27 14; (* 7284: saddw v27.4s, v27.4s, v14.4h *)
  Saddw 28 28 14; (* 7285: saddw v28.4s, v28.4s, v14.4h *)
  Saddw 29 29 14; (* 7286: saddw v29.4s, v29.4s, v14.4h *)
  Saddw 30 30 14; (* 7287: saddw v30.4s, v30.4s, v14.4h *)
  Saddw 31 31 14; (* 7288: saddw v31.4s, v31.4s, v14.4h *)
  Narrow false false 2 16 16; (* 7291: sqxtn v16.4h, v16.4s *)
  Narrow false true 2 16 17; (* 7292: sqxtn2 v16.8h, v17.4s *)
  Narrow false false 2 17 18; (* 7293: sqxtn v17.4h, v18.4s *)
  Narrow false true 2 17 19; (* 7294: sqxtn2 v17.8h, v19.4s *)
  Narrow false false 2 18 20; (* 7295: sqxtn v18.4h, v20.4s *)
  Narrow false true 2 18 21; (* 7296: sqxtn2 v18.8h, v21.4s *)
  Narrow false false 2 19 22; (* 7297: sqxtn v19.4h, v22.4s *)
  Narrow false true 2 19 23; (* 7298: sqxtn2 v19.8h, v23.4s *)
  Narrow false false 2 20 24; (* 7299: sqxtn v20.4h, v24.4s *)
  Narrow false true 2 20 25; (* 7300: sqxtn2 v20.8h, v25.4s *)
  Narrow false false 2 21 26; (* 7301: sqxtn v21.4h, v26.4s *)
  Narrow false true 2 21 27; (* 7302: sqxtn2 v21.8h, v27.4s *)
  Narrow false false 2 22 28; (* 7303: sqxtn v22.4h, v28.4s *)
  Narrow false true 2 22 29; (* 7304: sqxtn2 v22.8h, v29.4s *)
  Narrow false false 2 23 30; (* 7305: sqxtn v23.4h, v30.4s *)
  Narrow false true 2 23 31; (* 7306: sqxtn2 v23.8h, v31.4s *)
  Movi 24 0; (* 7311: movi v24.4s, #0 *)
  Movi 25 0; (* 7312: movi v25.4s, #0 *)
  Movi 26 0; (* 7313: movi v26.4s, #0 *)
  Movi 27 0; (* 7314: movi v27.4s, #0 *)
  Movi 28 0; (* 7315: movi v28.4s, #0 *)
  Movi 29 0; (* 7316: movi v29.4s, #0 *)
  Movi 30 0; (* 7317: movi v30.4s, #0 *)
  Movi 31 0; (* 7318: movi v31.4s, #0 *)
  Ldrs 2 2 params (Imm 120); (* 7321: ldrsh w2, [%[params], #120] *)
  Ldrs 2 3 params (Imm 124); (* 7322: ldrsh w3, [%[params], #124] *)
  Dup 2 8 14 2; (* 7323: dup v14.8h, w2 *)
  Dup 2 8 15 3; (* 7324: dup v15.8h, w3 *)
  V2 (Smax 2) 16 16 14; (* 7327: smax v16.8h, v16.8h, v14.8h *)
  V2 (Smax 2) 17 17 14; (* 7328: smax v17.8h, v17.8h, v14.8h *)
  V2 (Smax 2) 18 18 14; (* 7329: smax v18.8h, v18.8h, v14.8h *)
  V2 (Smax 2) 19 19 14; (* 7330: smax v19.8h, v19.8h, v14.8h *)
  V2 (Smax 2) 20 20 14; (* 7331: smax v20.8h, v20.8h, v14.8h *)
  V2 (Smax 2) 21 21 14; (* 7332: smax v21.8h, v21.8h, v14.8h *)
  V2 (Smax 2) 22 22 14; (* 7333: smax v22.8h, v22.8h, v14.8h *)
  V2 (Smax 2) 23 23 14; (* 7334: smax v23.8h, v23.8h, v14.8h *)
  V2 (Smin 2) 16 16 15; (* 7336: smin v16.8h, v16.8h, v15.8h *)
  V2 (Smin 2) 17 17 15; (* 7337: smin v17.8h, v17.8h, v15.8h *)
  V2 (Smin 2) 18 18 15; (* 7338: smin v18.8h, v18.8h, v15.8h *)
  V2 (Smin 2) 19 19 15; (* 7339: smin v19.8h, v19.8h, v15.8h *)
  V2 (Smin 2) 20 20 15; (* 7340: smin v20.8h, v20.8h, v15.8h *)
  V2 (Smin 2) 21 21 15; (* 7341: smin v21.8h, v21.8h, v15.8h *)
  V2 (Smin 2) 22 22 15; (* 7342: smin v22.8h, v22.8h, v15.8h *)
  V2 (Smin 2) 23 23 15; (* 7343: smin v23.8h, v23.8h, v15.8h *)
  Alu ASub false W 1 dst_rows (Reg row); (* 7350: sub w1, %w[dst_rows], %w[row] *)
  Alu ASub false W 2 dst_cols (Reg col); (* 7351: sub w2, %w[dst_cols], %w[col] *)
  Mov W 3 (Imm 8); (* 7352: mov w3, #8 *)
  Cmp W 1 (Imm 8); (* 7353: cmp w1, #8 *)
  Csel W 1 1 3 LE; (* 7355: csel w1, w1, w3, le *)
  Cmp W 2 (Imm 8); (* 7356: cmp w2, #8 *)
  Csel W 2 2 3 LE; (* 7358: csel w2, w2, w3, le *)
  Cmp W 1 (Reg 3); (* 7361: cmp w1, w3 *)
  Ccmp W 2 (Reg 3) EQ; (* 7362: ccmp w2, w3, 0, eq *)
  B EQ (Fwd 230); (* 7364: beq 230f *)
  Mov X 3 (Reg dst_tmp_buf); (* 7367: mov x3, %[dst_tmp_buf] *)
  Mov X 4 (Imm 16); (* 7368: mov x4, #16 *)
  B Always (Fwd 231); (* 7369: b 231f *)
  Label 230; (* 7370: 230: *)
  Mov X 3 (Reg dst_ptr); (* 7373: mov x3, %[dst_ptr] *)
  Mov X 4 (Reg 11); (* 7374: mov x4, x11 *)
  Label 231; (* 7375: 231: *)
  Nop; (* 7379: prfm pstl1strm, [x3] *)
  St1 16 16 3 (Reg 4); (* 7380: st1 {v16.8h}, [x3], x4 *)
  Movi 16 0; (* 7381: movi v16.4s, #0 *)
  Nop; (* 7382: prfm pstl1strm, [x3] *)
  St1 16 17 3 (Reg 4); (* 7383: st1 {v17.8h}, [x3], x4 *)
  Movi 17 0; (* 7384: movi v17.4s, #0 *)
  Nop; (* 7385: prfm pstl1strm, [x3] *)
  St1 16 18 3 (Reg 4); (* 7386: st1 {v18.8h}, [x3], x4 *)
  Movi 18 0; (* 7387: movi v18.4s, #0 *)
  Nop; (* 7388: prfm pstl1strm, [x3] *)
  St1 16 19 3 (Reg 4); (* 7389: st1 {v19.8h}, [x3], x4 *)
  Movi 19 0; (* 7390: movi v19.4s, #0 *)
  Nop; (* 7391: prfm pstl1strm, [x3] *)
  St1 16 20 3 (Reg 4); (* 7392: st1 {v20.8h}, [x3], x4 *)
  Movi 20 0; (* 7393: movi v20.4s, #0 *)
  Nop; (* 7394: prfm pstl1strm, [x3] *)
  St1 16 21 3 (Reg 4); (* 7395: st1 {v21.8h}, [x3], x4 *)
  Movi 21 0; (* 7396: movi v21.4s, #0 *)
  Nop; (* 7397: prfm pstl1strm, [x3] *)
  St1 16 22 3 (Reg 4); (* 7398: st1 {v22.8h}, [x3], x4 *)
  Movi 22 0; (* 7399: movi v22.4s, #0 *)
  Nop; (* 7400: prfm pstl1strm, [x3] *)
  St1 16 23 3 (Reg 4); (* 7401: st1 {v23.8h}, [x3], x4 *)
  Movi 23 0; (* 7402: movi v23.4s, #0 *)
  Inst 0x4f82e010; (* 7406: .inst 0x4f82e010  // sdot v16.4s, v0.16b, v2.4b[0] *)
  Inst 0x4fa2e012; (* 7407: .inst 0x4fa2e012  // sdot v18.4s, v0.16b, v2.4b[1] *)
  Inst 0x4f82e814; (* 7408: .inst 0x4f82e814  // sdot v20.4s, v0.16b, v2.4b[2] *)
  Inst 0x4fa2e816; (* 7409: .inst 0x4fa2e816  // sdot v22.4s, v0.16b, v2.4b[3] *)
  B EQ (Fwd 241); (* 7413: beq 241f *)
  Mov X 3 (Reg dst_tmp_buf); (* 7417: mov x3, %[dst_tmp_buf] *)
  Mov X 4 (Reg dst_ptr); (* 7418: mov x4, %[dst_ptr] *)
  Mov W 6 (Imm 0); (* 7419: mov w6, #0 *)
  Label 250; (* 7420: 250: *)
  Nop; (* 7421: prfm pstl1strm, [x4] *)
  Mov W 5 (Imm 0); (* 7422: mov w5, #0 *)
  Label 251; (* 7423: 251: *)
  Ldrs 2 7 3 (Lsl 5 1); (* 7424: ldrsh w7, [x3, x5, lsl #1] *)
  Str 2 7 4 (Lsl 5 1); (* 7425: strh w7, [x4, x5, lsl #1] *)
  Alu AAdd false W 5 5 (Imm 1); (* 7426: add w5, w5, #1 *)
  Cmp W 5 (Reg 1); (* 7427: cmp w5, w1 *)
  B LT (Back 251); (* 7428: blt 251b *)
  Alu AAdd false W 6 6 (Imm 1); (* 7429: add w6, w6, #1 *)
  Alu AAdd false X 3 3 (Imm 16); (* 7430: add x3, x3, #16 *)
  Alu AAdd false X 4 4 (Reg 11); (* 7431: add x4, x4, x11 *)
  Cmp W 6 (Reg 2); (* 7432: cmp w6, w2 *)
  B LT (Back 250); (* 7433: blt 250b *)
  Label 241; (* 7434: 241: *)
  Alu AAdd false X dst_ptr dst_ptr (Imm 16); (* 7435: add %[dst_ptr], %[dst_ptr], #16 *)
  B Always (Fwd 99); (* 7439: b 99f *)
  Label 94; (* 7441: 94: *)
  Ld1 8 0 lhs_ptr (Imm 8); (* 7443: ld1 {v0.8b}, [%[lhs_ptr]], #8 *)
  LdrPost 8 1 lhs_ptr (Imm 8); (* 7444: ldr x1, [%[lhs_ptr]], #8 *)
  Ld1 8 1 lhs_ptr (Imm 8); (* 7445: ld1 {v1.8b}, [%[lhs_ptr]], #8 *)
  LdrPost 8 2 lhs_ptr (Imm 8); (* 7446: ldr x2, [%[lhs_ptr]], #8 *)
  Ld1 8 2 rhs_ptr (Imm 8); (* 7447: ld1 {v2.8b}, [%[rhs_ptr]], #8 *)
  LdrPost 8 5 rhs_ptr (Imm 8); (* 7448: ldr x5, [%[rhs_ptr]], #8 *)
  Ld1 8 3 rhs_ptr (Imm 8); (* 7449: ld1 {v3.8b}, [%[rhs_ptr]], #8 *)
  LdrPost 8 6 rhs_ptr (Imm 8); (* 7450: ldr x6, [%[rhs_ptr]], #8 *)
  Ins 8 0 1 1; (* 7451: ins v0.d[1], x1 *)
  Ins 8 1 1 2; (* 7452: ins v1.d[1], x2 *)
  Ins 8 2 1 5; (* 7453: ins v2.d[1], x5 *)
  Ins 8 3 1 6; (* 7454: ins v3.d[1], x6 *)
  Alu ASub false W 1 dst_rows (Reg row); (* 7464: sub w1, %w[dst_rows], %w[row] *)
  Alu ASub false W 2 dst_cols (Reg col); (* 7465: sub w2, %w[dst_cols], %w[col] *)
  Mov W 3 (Imm 8); (* 7466: mov w3, #8 *)
  Cmp W 1 (Imm 8); (* 7467: cmp w1, #8 *)
  Csel W 1 1 3 LE; (* 7469: csel w1, w1, w3, le *)
  Cmp W 2 (Imm 8); (* 7470: cmp w2, #8 *)
  Csel W 2 2 3 LE; (* 7472: csel w2, w2, w3, le *)
  Cmp W 1 (Reg 3); (* 7475: cmp w1, w3 *)
  Ccmp W 2 (Reg 3) EQ; (* 7476: ccmp w2, w3, 0, eq *)
  B EQ (Fwd 330); (* 7478: beq 330f *)
  Mov X 3 (Reg dst_tmp_buf); (* 7481: mov x3, %[dst_tmp_buf] *)
  St1 16 16 3 (Imm 16); (* 7482: st1 {v16.4s}, [x3], #16 *)
  Movi 16 0; (* 7483: movi v16.4s, #0 *)
  St1 16 17 3 (Imm 16); (* 7484: st1 {v17.4s}, [x3], #16 *)
  Movi 17 0; (* 7485: movi v17.4s, #0 *)
  St1 16 18 3 (Imm 16); (* 7486: st1 {v18.4s}, [x3], #16 *)
  Movi 18 0; (* 7487: movi v18.4s, #0 *)
  St1 16 19 3 (Imm 16); (* 7488: st1 {v19.4s}, [x3], #16 *)
  Movi 19 0; (* 7489: movi v19.4s, #0 *)
  St1 16 20 3 (Imm 16); (* 7490: st1 {v20.4s}, [x3], #16 *)
  Movi 20 0; (* 7491: movi v20.4s, #0 *)
  St1 16 21 3 (Imm 16); (* 7492: st1 {v21.4s}, [x3], #16 *)
  Movi 21 0; (* 7493: movi v21.4s, #0 *)
  St1 16 22 3 (Imm 16); (* 7494: st1 {v22.4s}, [x3], #16 *)
  Movi 22 0; (* 7495: movi v22.4s, #0 *)
  St1 16 23 3 (Imm 16); (* 7496: st1 {v23.4s}, [x3], #16 *)
  Movi 23 0; (* 7497: movi v23.4s, #0 *)
  St1 16 24 3 (Imm 16); (* 7498: st1 {v24.4s}, [x3], #16 *)
  Movi 24 0; (* 7499: movi v24.4s, #0 *)
  St1 16 25 3 (Imm 16); (* 7500: st1 {v25.4s}, [x3], #16 *)
  Movi 25 0; (* 7501: movi v25.4s, #0 *)
  St1 16 26 3 (Imm 16); (* 7502: st1 {v26.4s}, [x3], #16 *)
  Movi 26 0; (* 7503: movi v26.4s, #0 *)
  St1 16 27 3 (Imm 16); (* 7504: st1 {v27.4s}, [x3], #16 *)
  Movi 27 0; (* 7505: movi v27.4s, #0 *)
  St1 16 28 3 (Imm 16); (* 7506: st1 {v28.4s}, [x3], #16 *)
  Movi 28 0; (* 7507: movi v28.4s, #0 *)
  St1 16 29 3 (Imm 16); (* 7508: st1 {v29.4s}, [x3], #16 *)
  Movi 29 0; (* 7509: movi v29.4s, #0 *)
  St1 16 30 3 (Imm 16); (* 7510: st1 {v30.4s}, [x3], #16 *)
  Movi 30 0; (* 7511: movi v30.4s, #0 *)
  St1 16 31 3 (Imm 16); (* 7512: st1 {v31.4s}, [x3], #16 *)
  Movi 31 0; (* 7513: movi v31.4s, #0 *)
  B Always (Fwd 331); (* 7515: b 331f *)
  Label 330; (* 7517: 330: *)
  Mov X 4 (Reg dst_ptr); (* 7519: mov x4, %[dst_ptr] *)
  Nop; (* 7520: prfm pstl1strm, [x4] *)
  St1Two 16 4 (Reg 11); (* 7521: st1 {v16.4s, v17.4s}, [x4], x11 *)
  Movi 16 0; (* 7522: movi v16.4s, #0 *)
  Movi 17 0; (* 7523: movi v17.4s, #0 *)
  Nop; (* 7524: prfm pstl1strm, [x4] *)
  St1Two 18 4 (Reg 11); (* 7525: st1 {v18.4s, v19.4s}, [x4], x11 *)
  Movi 18 0; (* 7526: movi v18.4s, #0 *)
  Movi 19 0; (* 7527: movi v19.4s, #0 *)
  Nop; (* 7528: prfm pstl1strm, [x4] *)
  St1Two 20 4 (Reg 11); (* 7529: st1 {v20.4s, v21.4s}, [x4], x11 *)
  Movi 20 0; (* 7530: movi v20.4s, #0 *)
  Movi 21 0; (* 7531: movi v21.4s, #0 *)
  Nop; (* 7532: prfm pstl1strm, [x4] *)
  St1Two 22 4 (Reg 11); (* 7533: st1 {v22.4s, v23.4s}, [x4], x11 *)
  Movi 22 0; (* 7534: movi v22.4s, #0 *)
  Movi 23 0; (* 7535: movi v23.4s, #0 *)
  Nop; (* 7536: prfm pstl1strm, [x4] *)
  St1Two 24 4 (Reg 11); (* 7537: st1 {v24.4s, v25.4s}, [x4], x11 *)
  Movi 24 0; (* 7538: movi v24.4s, #0 *)
  Movi 25 0; (* 7539: movi v25.4s, #0 *)
  Nop; (* 7540: prfm pstl1strm, [x4] *)
  St1Two 26 4 (Reg 11); (* 7541: st1 {v26.4s, v27.4s}, [x4], x11 *)
  Movi 26 0; (* 7542: movi v26.4s, #0 *)
  Movi 27 0; (* 7543: movi v27.4s, #0 *)
  Nop; (* 7544: prfm pstl1strm, [x4] *)
  St1Two 28 4 (Reg 11); (* 7545: st1 {v28.4s, v29.4s}, [x4], x11 *)
  Movi 28 0; (* 7546: movi v28.4s, #0 *)
  Movi 29 0; (* 7547: movi v29.4s, #0 *)
  Nop; (* 7548: prfm pstl1strm, [x4] *)
  St1Two 30 4 (Reg 11); (* 7549: st1 {v30.4s, v31.4s}, [x4], x11 *)
  Movi 30 0; (* 7550: movi v30.4s, #0 *)
  Movi 31 0; (* 7551: movi v31.4s, #0 *)
  Label 331; (* 7553: 331: *)
  Inst 0x4f82e010; (* 7557: .inst 0x4f82e010  // sdot v16.4s, v0.16b, v2.4b[0] *)
  Inst 0x4fa2e012; (* 7558: .inst 0x4fa2e012  // sdot v18.4s, v0.16b, v2.4b[1] *)
  Inst 0x4f82e814; (* 7559: .inst 0x4f82e814  // sdot v20.4s, v0.16b, v2.4b[2] *)
  Inst 0x4fa2e816; (* 7560: .inst 0x4fa2e816  // sdot v22.4s, v0.16b, v2.4b[3] *)
  B EQ (Fwd 341); (* 7564: beq 341f *)
  Mov X 3 (Reg dst_tmp_buf); (* 7569: mov x3, %[dst_tmp_buf] *)
  Mov X 4 (Reg dst_ptr); (* 7570: mov x4, %[dst_ptr] *)
  Mov W 6 (Imm 0); (* 7571: mov w6, #0 *)
  Label 350; (* 7572: 350: *)
  Nop; (* 7573: prfm pstl1strm, [x4] *)
  Mov W 5 (Imm 0); (* 7574: mov w5, #0 *)
  Label 351; (* 7575: 351: *)
  Ldr 4 7 3 (Lsl 5 2); (* 7576: ldr w7, [x3, x5, lsl #2] *)
  Str 4 7 4 (Lsl 5 2); (* 7577: str w7, [x4, x5, lsl #2] *)
  Alu AAdd false W 5 5 (Imm 1); (* 7578: add w5, w5, #1 *)
  Cmp W 5 (Reg 1); (* 7579: cmp w5, w1 *)
  B LT (Back 351); (* 7580: blt 351b *)
  Alu AAdd false W 6 6 (Imm 1); (* 7581: add w6, w6, #1 *)
  Alu AAdd false X 3 3 (Imm 32); (* 7582: add x3, x3, #32 *)
  Alu AAdd false X 4 4 (Reg 11); (* 7583: add x4, x4, x11 *)
  Cmp W 6 (Reg 2); (* 7584: cmp w6, w2 *)
  B LT (Back 350); (* 7585: blt 350b *)
  Label 341; (* 7586: 341: *)
  Alu AAdd false X dst_ptr dst_ptr (Imm 32); (* 7587: add %[dst_ptr], %[dst_ptr], #32 *)
  Label 99; (* 7591: 99: *)
  Ldr 4 6 params (Imm 80); (* 7595: ldr w6, [%[params], #80] *)
  Ldr 4 7 params (Imm 88); (* 7596: ldr w7, [%[params], #88] *)
  Cmp W row (Reg 7); (* 7602: cmp %w[row], w7 *)
  B EQ (Fwd 20); (* 7603: beq 20f *)
  Alu AAdd false W row row (Imm 8); (* 7605: add %w[row], %w[row], #8 *)
  B Always (Fwd 21); (* 7606: b 21f *)
  Label 20; (* 7607: 20: *)
  Mov W row (Reg 6); (* 7609: mov %w[row], w6 *)
  Alu AAdd false W col col (Imm 8); (* 7610: add %w[col], %w[col], #8 *)
  Alu AAdd false X dst_col_ptr dst_col_ptr (Lsl 11 3); (* 7611: add %[dst_col_ptr], %[dst_col_ptr], x11, lsl #3 *)
  Mov X dst_ptr (Reg dst_col_ptr); (* 7612: mov %[dst_ptr], %[dst_col_ptr] *)
  Label 21; (* 7613: 21: *)
  Cmp W col (Reg 8); (* 7616: cmp %w[col], w8 *)
  Ldr 8 5 params (Imm 24); (* 7617: ldr x5, [%[params], #24] *)
  B LE (Back 1) (* 7618: ble 1b *)
].
